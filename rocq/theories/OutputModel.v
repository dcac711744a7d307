(* The WAV and RAW files that asapconv writes *)
From Verif Require Import Base MemModel InfoModel PokeyModel MachineModel PlayModel OptionModel.

(* asapconv.c:52, 616, 618: arg_sample_format; OptionModel has it as [o_word] *)
Definition conv_format (o : options) : sample_format := if o_word o then S16LE else U8.

(* asapconv.c:327-339 play_song; [Fail] is fatal_error *)
Definition conv_duration (o : options) (song : Z) (inf : info) : outcome Z :=
  if o_duration o <? 0 then d <- api_get_duration inf song ;; Ok (if d <? 0 then 180 * 1000 else d)
  else Ok (o_duration o).
Definition conv_play (o : options) (song : Z) (s : asap) : outcome asap :=
  duration <- conv_duration o song (m_info s) ;;
  '(b, s) <- api_play_song song duration s ;;
  if b : bool then Ok (api_mute (o_mute o) s) else Fail.

(* asapconv.c:371-374, the do loop of convert_to_wav: what is written and the player after it.  Writing succeeds. *)
Fixpoint conv_samples (fuel : nat) (buffer : list Z) (f : sample_format) (s : asap) : outcome (list Z * asap) :=
  match fuel with
  | O => OutOfFuel
  | S k =>
    '(n, buffer, s) <- api_generate buffer 8192 f s ;;
    if n =? 8192 then
      '(rest, s) <- conv_samples k buffer f s ;; Ok (firstn (Z.to_nat n) buffer ++ rest, s)
    else Ok (firstn (Z.to_nat n) buffer, s)
  end.

(* asapconv.c:363-376, the body of the while loop of convert_to_wav: one output file.
   [buffer] is what happens to be in the array of 8192 bytes. *)
Definition conv_file (fuel : nat) (buffer : list Z) (o : options) (header : bool) (song : Z) (s : asap) : outcome (list Z * asap) :=
  s <- conv_play o song s ;;
  '(head, buffer) <- (if header then '(n, buffer) <- api_wav_header buffer (conv_format o) (o_tag o) s ;; Ok (firstn (Z.to_nat n) buffer, buffer) else Ok ([], buffer)) ;;
  '(data, s) <- conv_samples fuel buffer (conv_format o) s ;;
  Ok (head ++ data, s).
