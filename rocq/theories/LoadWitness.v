(* Concrete files for the statements about the memory after loading *)
From Coq Require Import String.
From Verif Require Import Base BaseFacts Loop MemModel InfoModel NativeModel WindowSpec NativeSpec SapSpec FlashSpec LoadSpec PokeyModel MachineModel PlayModel SapWitness MachineWitness NativeWitness.

Definition sap_head : list Z := str "SAP" ++ [13; 10] ++ str "TYPE D" ++ [13; 10] ++ str "INIT 0600" ++ [13; 10].
(* two blocks, the second over the end of the first *)
Definition two_blocks : list FlashSpec.block := [(false, 1536, [1; 2; 3; 4]); (true, 1538, [7; 8; 9])].
Lemma two_blocks_ok : bytes (sap_file sap_head two_blocks) /\ sap_blocks two_blocks.
Proof.
  split; [apply bytesb_spec; vm_compute; reflexivity|]. cbn [sap_blocks two_blocks]. split; [reflexivity|].
  split; [|constructor; [|constructor]]; cbn; repeat split; try lia; try discriminate; apply bytesb_spec; reflexivity.
Qed.
Lemma two_blocks_loaded : exists s', asap_load 100 (Some (str "x.sap")) (sap_file sap_head two_blocks) blank_asap = Ok s' /\ i_headerLen (m_info s') = len sap_head
  /\ map (ld (m_memory s')) [1535; 1536; 1537; 1538; 1539; 1540; 1541] = [0; 1; 2; 7; 8; 9; 0].
Proof. eexists. split; [vm_compute; reflexivity|]. split; vm_compute; reflexivity. Qed.

(* the last byte is missing *)
Definition cut_sap : list Z := sap_file sap_head [(false, 1536, [1; 2; 3; 4])].
Definition cut : list Z := firstn 33 cut_sap.
Lemma cut_overread : bytes cut /\ cut_sap = cut ++ [4] /\ asap_load 100 (Some (str "x.sap")) cut blank_asap = UB UbRead.
Proof. split; [apply bytesb_spec; vm_compute; reflexivity|]. split; vm_compute; reflexivity. Qed.

(* FC: the module is 24 bytes longer than the memory above its address *)
Definition fc_long : list Z := fc_empty ++ repeat 0 (Z.to_nat 62005).
Lemma fc_overwrite : bytes fc_long /\ len fc_long = 63000 /\ asap_load 1000 (Some (str "x.fc")) fc_long blank_asap = UB UbWrite.
Proof. split; [apply bytesb_spec; vm_compute; reflexivity|]. split; vm_compute; reflexivity. Qed.

(* RMT: the music and the names end with the memory, but the four bytes between them are copied, too *)
Definition rmt_high : list Z :=
  [255; 255; 218; 255; 249; 255] ++ str "RMT4" ++ [2; 1; 1; 1; 234; 255; 236; 255; 237; 255; 242; 255]
  ++ [0; 0] ++ [238] ++ [255] ++ [0; 0; 1; 0] ++ [0; 255; 255; 255] ++ [254; 0; 242; 255]
  ++ [250; 255; 255; 255] ++ str "Tune" ++ [0; 0].
Lemma rmt_overwrite : bytes rmt_high /\ asap_load 1000 (Some (str "x.rmt")) rmt_high blank_asap = UB UbWrite.
Proof. split; [apply bytesb_spec; vm_compute; reflexivity|vm_compute; reflexivity]. Qed.

Lemma cmc_placed : exists s', asap_load 85 (Some (str "x.cmc")) cmc_file blank_asap = Ok s' /\ 0 < len (music_data (str "cmc") cmc_file)
  /\ music_start (str "cmc") cmc_file = 8192 /\ routine_start CMC 1 = 1280 /\ ld (m_memory s') 1280 = 76 /\ ld (m_memory s') 8211 = at_ cmc_file 25.
Proof. eexists. split; [vm_compute; reflexivity|]. repeat split; vm_compute; reflexivity. Qed.
