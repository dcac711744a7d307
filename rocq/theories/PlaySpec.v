(* Specification vocabulary for playback: sample formats, blocks, WAV headers *)
From Verif Require Import Base PokeyModel.

Definition bytes_per_sample (f : sample_format) : Z := match f with U8 => 1 | S16LE | S16BE => 2 end.
Definition signed16 (v : Z) : Z := if v <? 32768 then v else v - 65536.
(* the 16-bit sample a player of the format would hear *)
Definition heard (f : sample_format) (l : list Z) : Z :=
  match f, l with
  | U8, [a] => 256 * (a - 128)
  | S16LE, [a; b] => signed16 (a + 256 * b)
  | S16BE, [a; b] => signed16 (b + 256 * a)
  | _, _ => 0
  end.
Definition saturate (v : Z) : Z := Z.max (-32767) (Z.min 32767 v).
(* the sample without what the format drops *)
Definition kept (f : sample_format) (v : Z) : Z := match f with U8 => 256 * (v / 256) | _ => v end.
