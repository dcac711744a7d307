(* Specifications used in the statements about the output window. *)
From Verif Require Import Base InfoModel WriterModel SapSpec.

(* everything outside output[start..end) is as before *)
Definition only_inside (start end_ : Z) (before after : list Z) : Prop :=
  len after = len before
  /\ forall i, 0 <= i < len before -> i < start \/ end_ <= i -> at_ after i = at_ before i.

Definition xex_ext : list Z := [120; 101; 120].
Definition tmc_ext : list Z := [116; 109; 99].
Definition tm8_ext : list Z := [116; 109; 56].

(* the second name of TMC files *)
Definition also_listed (exts : list (list Z)) (ext : list Z) : Prop := ext = tm8_ext /\ In tmc_ext exts.

(* a refusal: false, nothing stored *)
Definition refused (r : outcome (bool * wstate)) (w : wstate) : Prop := r = Ok (false, w).
Definition not_saved (r : outcome (bool * wstate)) : Prop := forall w', r <> Ok (true, w').

(* the little-endian word at an index of a file *)
Definition file_word (l : list Z) (i : Z) : Z := at_ l i + 256 * at_ l (i + 1).
