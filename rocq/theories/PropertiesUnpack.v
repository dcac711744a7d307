(* Properties of packed executables running on a 6502.  See UnpackSpec.v and FlashSpec.v for the terms used. *)
From Verif Require Import Base MemModel CpuSpec InfoModel WriterModel SapSpec FlashPackModel FlashSpec FlashWitness UnpackSpec UnpackProofs UnpackTouch UnpackWitness.

(* ---- C59 ---- *)
(* the decompressor, started at its start with any registers, gets to the address to run at with the memory that the
   description of the format tells, except for the bytes it uses itself; the stack pointer is as it was.  The condition is
   that nothing is copied from or stored to these bytes, the code or the part of the stream still to be read *)
Theorem C59_depacker :
  forall c org source start stream n u u',
  512 <= source -> source + len stream = org -> org + 88 <= 65500 -> 0 <= start < 65536 -> byte_mem (M c) -> byte (SP c) ->
  holds (M c) source (stream ++ depacker org source start) -> PC c = org + 50 -> fD c = false -> sets_address stream ->
  (forall a, u_mem u a = ld (M c) a) -> u_dist u = 128 - ld (M c) 254 ->
  unpack n stream u = Some u' -> Forall (free org (SP c)) (touches n stream u) ->
  exists d, gets c d /\ PC d = start /\ SP d = SP c /\ forall a, 0 <= a < 65536 -> ~ own org (SP c) a -> ld (M d) a = u_mem u' a.
Proof. exact depacker_runs. Qed.
Print Assumptions C59_depacker.

Example C59_depacker_example : exists d, gets tiny_cpu d /\ PC d = 8192 /\
  map (ld (M d)) [8192; 8193; 8194; 8195; 8196; 8197; 8198; 8199; 8200; 8201; 580] = [1; 2; 3; 1; 9; 3; 1; 2; 3; 7; 255].
Proof. exact tiny_runs. Qed.

(* the whole way: any executable of at most 64 blocks that is packed, loaded again and started with any registers, gets
   to its run address with all its data in memory, the five hardware and system bytes set, and nothing else changed
   except for the bytes the decompressor uses itself.  The stack must not point into the data *)
Theorem C59_packed :
  forall bs w rest w', Forall proper_block bs -> wf w -> w_out w = executable bs ++ rest -> w_off w = len (executable bs) ->
  fp_compress w = Ok (true, w') -> len bs <= 64 ->
  let m := program bs in
  exists blocks org, slice (w_out w') 0 (w_off w') = executable blocks /\ Forall proper_block blocks /\
    8192 <= org <= 48072 /\ (forall a, org - 936 <= a <= org + 87 -> data_of m a < 0) /\
    forall c, byte_mem (M c) -> byte (SP c) -> fD c = false -> in_memory (M c) blocks -> PC c = ld (M c) 736 + 256 * ld (M c) 737 ->
    m (256 + SP c) < 0 -> m (256 + w8 (SP c - 1)) < 0 ->
    exists d, gets c d /\ PC d = run_of m /\ SP d = SP c /\
      (forall a, 0 <= a < 65536 -> 0 <= data_of m a -> ld (M d) a = data_of m a) /\
      (forall a, 0 <= a < 65536 -> data_of m a < 0 -> ~ own org (SP c) a -> ld (M d) a = pokes (ld (M c)) a).
Proof. exact packed_runs. Qed.
Print Assumptions C59_packed.

Example C59_packed_example :
  (exists w', fp_compress small_output = Ok (true, w') /\ w_off w' = 142 /\ slice (w_out w') 0 142 = executable (packed small_stream 48159 8192)) /\
  len small_program = 3 /\ in_memory (M small_cpu) (packed small_stream 48159 8192) /\ byte_mem (M small_cpu) /\
  PC small_cpu = ld (M small_cpu) 736 + 256 * ld (M small_cpu) 737 /\ program small_program (256 + SP small_cpu) < 0.
Proof. split; [exact small_ok|]. split; [reflexivity|]. split; [exact small_in_memory|]. split; [exact small_bytes|]. split; reflexivity. Qed.
