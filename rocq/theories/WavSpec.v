(* The RIFF/WAVE format, as far as ASAP uses it *)
From Coq Require Import String.
From Verif Require Import Base InfoModel InfoSpec.

(* n bytes, least significant first *)
Fixpoint little_endian (n : nat) (v : Z) : list Z :=
  match n with O => [] | S k => v mod 256 :: little_endian k (v / 256) end.

(* a chunk: four characters, the length of its contents, the contents *)
Definition chunk (id : string) (body : list Z) : list Z := str id ++ little_endian 4 (len body) ++ body.

(* a text in a chunk ends with a zero and is padded to an even length *)
Definition zero_ended (text : list Z) : list Z := text ++ (if Z.even (len text) then [0; 0] else [0]).
Definition info_chunk (id : string) (text : list Z) : list Z :=
  match text with [] => [] | _ => chunk id (zero_ended text) end.

(* the year written for a date: its last four characters, nothing for no date or the year 0 *)
Inductive year_text (date : list Z) : list Z -> Prop :=
| year_known y m d : date_syntax date y m d -> y <> 0 -> year_text date (skipn (length date - 4) date)
| year_unknown : (forall y m d, date_syntax date y m d -> y = 0) -> year_text date [].

Definition list_chunk (title author year : list Z) : list Z :=
  match info_chunk "INAM" title ++ info_chunk "IART" author ++ info_chunk "ICRD" year with
  | [] => []
  | items => chunk "LIST" (str "INFO" ++ items)
  end.

(* everything before the samples, which are [size] bytes *)
Definition wave_header (channels rate bytesPerSample : Z) (extra : list Z) (size : Z) : list Z :=
  let form := str "WAVE"
    ++ chunk "fmt " (little_endian 2 1 ++ little_endian 2 channels ++ little_endian 4 rate
         ++ little_endian 4 (rate * channels * bytesPerSample) ++ little_endian 2 (channels * bytesPerSample)
         ++ little_endian 2 (8 * bytesPerSample))
    ++ extra ++ str "data" ++ little_endian 4 size in
  str "RIFF" ++ little_endian 4 (len form + size) ++ form.
