(* ASAPInfo_GetInstrumentNamesOffset *)
From Verif Require Import Base InfoModel.

(* asap.c:4370-4373, the loop; [n] is the number of offsets left *)
Fixpoint names_from (module : list Z) (n : nat) (offset : Z) : outcome Z :=
  match n with
  | O => Ok (-1)
  | S n => c <- get module (offset - 1) ;; if c =? 0 then Ok offset else names_from module n (offset + 1)
  end.

(* asap.c:4366-4375 ASAPInfo_GetInstrumentNamesOffset; the array is not assumed to be the one that was loaded *)
Definition api_instrument_names_offset (inf : info) (module : list Z) : outcome Z :=
  if negb (module_type_eqb (i_type inf) RMT) then Ok (-1)
  else
    last <- get_word module 4 ;;
    first <- get_word module 2 ;;
    let offset := last - first + 12 in
    names_from module (Z.to_nat (len module - offset)) offset.
