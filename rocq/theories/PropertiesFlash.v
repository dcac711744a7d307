(* Properties of packed executables.  See FlashSpec.v for the terms used. *)
From Verif Require Import Base InfoModel WriterModel SapSpec FlashPackModel FlashSpec FlashFile FlashWitness.

(* ---- C19 ---- *)
(* the stream for any memory image and any hole, decoded from any state of the machine and whatever follows it, stores
   the loaded bytes at their addresses, does the five pokes (unless the image has these addresses) and changes nothing else *)
Theorem C19_stream :
  forall m e stream, proper_image m -> 0 <= e < 65536 -> compress_memory m e = Ok stream ->
  forall st rest n, (length stream <= n)%nat ->
  exists st', unpack n (stream ++ rest) st = Some st' /\ forall a, u_mem st' a = over m (pokes (u_mem st)) a.
Proof. intros m e stream Hm He E. pose proof (stream_ok m e Hm He) as H. rewrite E in H. exact H. Qed.
Print Assumptions C19_stream.

(* the file made from an executable of these blocks *)
Theorem C19_packed :
  forall bs w rest, Forall proper_block bs -> wf w -> w_out w = executable bs ++ rest -> w_off w = len (executable bs) ->
  let m := program bs in
  match fp_compress w with
  | Ok (true, w') =>
    0 <= m 736 /\ 0 <= m 737 /\ m 252 < 0 /\ m 253 < 0 /\ m 254 < 0 /\ m 255 < 0 /\
    exists stream e, 9216 <= e <= 48159 /\ 8192 <= e - 87 - len stream /\ (forall a, e - 1023 <= a <= e -> data_of m a < 0) /\
      slice (w_out w') 0 (w_off w') = executable (packed stream e (run_of m)) /\
      forall st r n, (length stream <= n)%nat ->
      exists st', unpack n (stream ++ r) st = Some st' /\ forall a, u_mem st' a = over (data_of m) (pokes (u_mem st)) a
  | Ok (false, w') => w_off w' <= w_end w
  | UB r => r = UbWrite /\ 65536 * 64 < 73 * data_len bs + 201 * len bs + 2677
  | _ => False
  end.
Proof. exact compress_ok. Qed.
Print Assumptions C19_packed.

(* in particular nothing is stored outside the compressor's buffers for executables of usual size *)
Theorem C19_fits :
  forall bs w rest, Forall proper_block bs -> wf w -> w_out w = executable bs ++ rest -> w_off w = len (executable bs) ->
  data_len bs <= 57000 -> len bs <= 100 -> exists b w', fp_compress w = Ok (b, w').
Proof.
  intros bs w rest HP Hw Ho Hf H1 H2. pose proof (compress_ok bs w rest HP Hw Ho Hf) as H. cbv zeta in H.
  destruct (fp_compress w) as [[b w']| |r|]; [now exists b, w'|contradiction|destruct H; lia|contradiction].
Qed.
Print Assumptions C19_fits.

Example C19_example :
  Forall proper_block small_program /\ w_out small_output = executable small_program ++ repeat 0 200 /\
  (exists w', fp_compress small_output = Ok (true, w') /\ w_off w' = 142).
Proof. split; [exact small_proper|]. split; [reflexivity|]. destruct small_ok as (w' & E & O & _). exists w'. now split. Qed.

Example C19_decode_example : exists st,
  unpack 37 [224; 170; 0; 142; 211; 0; 0; 142; 209; 0; 0; 128; 211; 0; 0; 129; 210; 254; 160; 0; 196; 1; 255; 0; 128; 31;
             1; 2; 3; 1; 9; 208; 250; 244; 7; 1; 0] (mkUnpacker (fun _ => 99) 0 0) = Some st
  /\ map (u_mem st) [8191; 8192; 8193; 8194; 8195; 8196; 8197; 8198; 8199; 8200; 8201; 8202; 0xd301; 0x244]
     = [99; 1; 2; 3; 1; 9; 3; 1; 2; 3; 7; 99; 254; 255].
Proof. eexists. split; [vm_compute; reflexivity|vm_compute; reflexivity]. Qed.
