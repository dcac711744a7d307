(* Native module files used by the examples and refutations. *)
From Coq Require Import String.
From Verif Require Import Base InfoModel.

(* replace the byte at [i] *)
Definition poke (i : nat) (v : Z) (l : list Z) : list Z := firstn i l ++ v :: skipn (S i) l.
Fixpoint pokes (i : nat) (vs : list Z) (l : list Z) : list Z :=
  match vs with [] => l | v :: r => pokes (S i) r (poke i v l) end.

(* an Atari binary block at [addr] of [n] bytes *)
Definition block (addr : Z) (n : nat) (fill : Z) : list Z :=
  let last := addr + Z.of_nat n - 1 in
  [255; 255; u8 addr; Z.shiftr addr 8; u8 last; Z.shiftr last 8] ++ repeat fill n.

(* CMC: two songs of one and two lines *)
Definition cmc_file : list Z := pokes 25 [6] (pokes 518 [0; 143; 0; 0; 239] (pokes 603 [0; 0; 0; 0; 0] (block 8192 768 255))).

(* CMC: line 0 repeats the empty range starting at line 1 twice, line 1 jumps to line 0 *)
Definition cmc_endless : list Z := pokes 25 [6] (pokes 518 [208; 144] (pokes 603 [0; 0] (pokes 688 [2; 0] (block 8192 768 255)))).

(* CMC: four lines repeated 253 times at tempo 127 *)
Definition cmc_long : list Z :=
  pokes 25 [127] (pokes 518 [208; 0; 0; 0; 0] (pokes 603 [4; 0; 0; 0; 0] (pokes 688 [253; 0; 0; 0; 0] (block 8192 768 255)))).

(* CMS of the minimal accepted length, all positions empty *)
Definition cms_short : list Z := block 8192 768 255.

(* MPT whose only song line would be after the end *)
Definition mpt_short : list Z := pokes 454 [202; 204; 0; 0; 33; 33; 0; 0] (block 8192 458 0).

(* TMC and TM2 with zero pattern addresses *)
Definition tmc_bad : list Z := pokes 38 [192] (pokes 102 [33] (block 8192 458 0)).
Definition tm2_bad : list Z := pokes 37 [1] (pokes 918 [1] (pokes 134 [145] (pokes 774 [35] (block 8192 926 0)))).

(* MPT: 254 song lines of blank patterns of 255 rows at tempo 255 *)
Definition mpt_long : list Z := pokes 454 [202; 198; 202; 202; 33; 35; 33; 33; 255; 255] (block 8192 (458 + 1016) 0).

(* RMT: one song line using pattern 0 *)
Definition rmt_with (lo hi p0 p1 p2 : Z) : list Z :=
  pokes 6 (str "RMT4" ++ [1; 1; 1; 1; 26; 64; 34; 64; 35; 64; 42; 64]) (pokes 40 [lo; hi; p0; p1; p2] (pokes 48 [0; 255; 255; 255] (block 16384 46 0))).
(* the pattern is at an address outside the module *)
Definition rmt_bad : list Z := rmt_with 255 255 0 0 0.
(* the pattern starts with a jump to itself *)
Definition rmt_endless : list Z := rmt_with 36 64 191 0 0.

(* FC: no song *)
Definition fc_empty : list Z := [38; 35; 1] ++ repeat 65 768 ++ repeat 0 128 ++ repeat 255 96.
