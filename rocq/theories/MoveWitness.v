(* Concrete modules for the statements about saving native modules. *)
From Coq Require Import String.
From Verif Require Import Base BaseFacts InfoModel NativeModel WindowSpec WriterModel FlashPackModel WriteModel SapSpec SapWitness NativeWitness SaveWitness MoveSpec.

(* RMT: no instrument, one pattern, two song lines of which the second jumps to the first, and a title *)
Definition rmt_body (first second : Z) : list Z :=
  [first; second; 0; 64; 31; 64] ++ str "RMT4" ++ [2; 1; 1; 1; 16; 64; 18; 64; 19; 64; 24; 64]
  ++ [0; 0] ++ [20] ++ [64] ++ [0; 0; 1; 0] ++ [0; 255; 255; 255] ++ [254; 0; 24; 64]
  ++ [32; 64; 37; 64] ++ str "Tune" ++ [0; 0].
Definition rmt_tune : list Z := rmt_body 255 255.
Definition rmt_zeros : list Z := rmt_body 0 0.
(* the same at 20480 *)
Definition rmt_tune_20480 : list Z :=
  [255; 255; 0; 80; 31; 80] ++ str "RMT4" ++ [2; 1; 1; 1; 16; 80; 18; 80; 19; 80; 24; 80]
  ++ [0; 0] ++ [20] ++ [80] ++ [0; 0; 1; 0] ++ [0; 255; 255; 255] ++ [254; 0; 24; 80]
  ++ [32; 80; 37; 80] ++ str "Tune" ++ [0; 0].
(* CMC at address 0, pattern 0 at 400 *)
Definition cmc_zero : list Z := pokes 26 [144] (pokes 90 [1] (pokes 2 [0; 0; 255; 2] cmc_file)).

Definition room : wstate := mkW (repeat 7 1000) 0 1000.
Definition room_at_10 : wstate := mkW (repeat 7 1000) 10 1000.

Lemma rmt_tune_complete : bytes rmt_tune /\ complete RMT rmt_tune /\ len rmt_tune = 48.
Proof. split; [apply bytesb_spec; vm_compute; reflexivity|]. split; [|vm_compute; reflexivity]. cbn [complete]. repeat split; vm_compute; auto; discriminate. Qed.

Lemma rmt_tune_same : exists inf w', loaded_as "x.rmt" rmt_tune = Ok inf
  /\ api_write (str "y.rmt") inf rmt_tune false room = Ok (true, w') /\ written room w' = rmt_tune.
Proof. do 2 eexists. split; [vm_compute; reflexivity|]. split; vm_compute; reflexivity. Qed.

Lemma rmt_tune_moved : exists inf inf' w', loaded_as "x.rmt" rmt_tune = Ok inf /\ api_set_music_address inf 20480 = (true, inf')
  /\ api_write (str "y.rmt") inf' rmt_tune false room = Ok (true, w') /\ written room w' = rmt_tune_20480.
Proof. do 3 eexists. split; [vm_compute; reflexivity|]. split; [vm_compute; reflexivity|]. split; vm_compute; reflexivity. Qed.

Lemma rmt_tune_movable : movable RMT 4096 rmt_tune.
Proof.
  assert (H : forallb (fun i => match cell_of RMT rmt_tune i with
    | Some c => (address rmt_tune c =? 0) || (address rmt_tune c =? 65535) || ((0 <? address rmt_tune c + 4096) && (address rmt_tune c + 4096 <? 65535))
    | None => true end) (map Z.of_nat (seq 0 48)) = true) by (vm_compute; reflexivity).
  split; [vm_compute; split; [reflexivity|discriminate]|]. split; [vm_compute; reflexivity|]. intros i c Hi E. change (len rmt_tune) with 48 in Hi.
  rewrite forallb_forall in H. specialize (H i ltac:(apply in_map_iff; exists (Z.to_nat i); split; [lia|apply in_seq; lia])). rewrite E in H. lia.
Qed.

(* a module with zeros at the beginning gets the usual 255s *)
Lemma rmt_zeros_differ : exists inf w', loaded_as "x.rmt" rmt_zeros = Ok inf
  /\ api_write (str "y.rmt") inf rmt_zeros false room = Ok (true, w') /\ written room w' = rmt_tune /\ rmt_tune <> rmt_zeros.
Proof. do 2 eexists. split; [vm_compute; reflexivity|]. split; [vm_compute; reflexivity|]. split; [vm_compute; reflexivity|discriminate]. Qed.

(* a window that does not begin at index 0 *)
Lemma start_differs : exists inf w', loaded_as "x.cmc" cmc_file = Ok inf
  /\ api_write (str "y.cmc") inf cmc_file false room_at_10 = Ok (true, w') /\ written room_at_10 w' <> cmc_file.
Proof. do 2 eexists. split; [vm_compute; reflexivity|]. split; [vm_compute; reflexivity|]. vm_compute. discriminate. Qed.

(* the start address 0 is taken for no address *)
Lemma zero_not_moved : exists inf inf' w', loaded_as "x.cmc" cmc_zero = Ok inf /\ api_set_music_address inf 8192 = (true, inf')
  /\ api_write (str "y.cmc") inf' cmc_zero false room = Ok (true, w')
  /\ file_word (written room w') 2 = 0 /\ file_word (written room w') 4 = file_word cmc_zero 4 + 8192 /\ address (written room w') (26, 90) = address cmc_zero (26, 90) + 8192
  /\ loaded_as "y.cmc" (written room w') = Fail.
Proof.
  do 3 eexists. split; [vm_compute; reflexivity|]. split; [vm_compute; reflexivity|]. split; [vm_compute; reflexivity|].
  split; [vm_compute; reflexivity|]. split; [vm_compute; reflexivity|]. split; vm_compute; reflexivity.
Qed.
