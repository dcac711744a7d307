(* What a SAP file retagged by asapconv should say *)
From Verif Require Import Base InfoModel OptionModel.

(* what the user asked for, or else what was there *)
Definition or_else {A} (v : option A) (d : A) : A := match v with Some x => x | None => d end.

(* the duration that song k should have when the duration of a song is given with -t *)
Definition new_duration (o : options) (song : Z) (inf : info) (k : Z) : Z :=
  if (k =? song) && (0 <=? o_duration o) then o_duration o else at_ (i_durations inf) k.
