(* A small executable, packed. *)
From Verif Require Import Base InfoModel WriterModel SapSpec FlashPackModel FlashSpec.

(* the second block replaces a byte of the first one *)
Definition small_program : list block :=
  [ (true, 8192, [1; 2; 3; 1; 2; 3; 1; 2; 3; 7]); (false, 8196, [9]); (false, 736, [0; 32]) ].
Definition small_output : wstate := mkW (executable small_program ++ repeat 0 200) (len (executable small_program)) 200.

Definition small_stream : list Z :=
  [224; 170; 0; 142; 211; 0; 0; 142; 209; 0; 0; 128; 211; 0; 0; 129; 210; 254; 160; 0; 196; 1; 255; 0; 128; 31;
   1; 2; 3; 1; 9; 208; 250; 244; 7; 1; 0].
Lemma small_packed : match fp_compress small_output with Ok (true, w') => (w_off w', slice (w_out w') 0 142) | _ => (0, []) end = (142, executable (packed small_stream 48159 8192)).
Proof. vm_compute. reflexivity. Qed.

Lemma small_proper : Forall proper_block small_program.
Proof. repeat constructor; cbn; try lia; unfold byte; repeat constructor; lia. Qed.

Lemma small_ok : exists w', fp_compress small_output = Ok (true, w') /\ w_off w' = 142 /\ slice (w_out w') 0 142 = executable (packed small_stream 48159 8192).
Proof.
  pose proof small_packed as H. destruct (fp_compress small_output) as [[[] w']| | |]; try discriminate. exists w'. split; [reflexivity|]. injection H as H1 H2. now split.
Qed.
