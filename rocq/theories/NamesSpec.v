(* The texts of an RMT module: the first block, then a four-byte header, the title, a zero, the names of the instruments *)
From Verif Require Import Base WindowSpec.

Definition text_start (f : list Z) : Z := 6 + (file_word f 4 + 1 - file_word f 2) + 4.

(* the first zero at or after [i] is at [j] *)
Definition first_zero (f : list Z) (i j : Z) : Prop := i <= j < len f /\ at_ f j = 0 /\ forall k, i <= k < j -> at_ f k <> 0.

(* the offset of the names: just after the zero, if there is anything after it *)
Definition names_at (f : list Z) (r : Z) : Prop :=
  (first_zero f (text_start f) (r - 1) /\ r < len f) \/
  (r = -1 /\ forall j, first_zero f (text_start f) j -> j = len f - 1).

(* a character of the title as ASAP shows it *)
Definition shown (c : Z) : Z := if (32 <=? c) && (c <=? 124) && negb (c =? 96) && negb (c =? 123) then c else 32.
(* the title: up to the first zero or the end of the file, at most 127 characters *)
Definition title_end (f : list Z) (e : Z) : Prop :=
  text_start f <= e <= text_start f + 127 /\ (forall k, text_start f <= k < e -> k < len f /\ at_ f k <> 0) /\
  (e = text_start f + 127 \/ len f <= e \/ at_ f e = 0).
