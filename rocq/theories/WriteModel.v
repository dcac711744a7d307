(* Model of ASAPWriter_Write (asapwriter.fu; asap.c:5479-5565). *)
From Verif Require Import Base InfoModel WriterModel FlashPackModel.

(* asap.c:5479-5565 ASAPWriter_Write: true and the new outputOffset in the state, or false for -1 *)
Definition api_write (targetFilename : list Z) (inf : info) (module : list Z) (tag : bool) : wr := fun w =>
  let destExt := get_packed_ext targetFilename in
  if destExt =? 7364979 then write_executable false inf module w
  else if destExt =? 7890296 then
    wseqs [ write_executable true inf module;
            wbind (exec_init_player inf module) (fun '(init, player) => write_xex_tail inf tag init player);
            fp_compress ] w
  else
    possibleExt <- get_original_module_ext inf module ;;
    match possibleExt with
    | None => Ok (false, w)
    | Some ext =>
      let packed := pack_ext ext in
      if (destExt =? packed) || ((destExt =? 3698036) && (packed =? 6516084))
      then write_native inf module w
      else Ok (false, w)
    end.
