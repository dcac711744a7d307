(* C52: ASAP_Load puts the data where the file says.  C41: where a native module may be.  Nothing but statements here. *)
From Coq Require Import String.
From Verif Require Import Base BaseFacts Loop MemModel InfoModel NativeModel WindowSpec NativeSpec SapSpec FlashSpec LoadSpec PokeyModel MachineModel PlayModel
  MachineWitness NativeWitness LoadProofs LoadWitness.

(* ---- C41: a module that loads is where the player can use it ---- *)
Theorem C41_placed :
  forall fuel self name ext f inf, In ext native_exts -> ext <> fc_ext -> named name ext -> bytes f ->
    api_load fuel self (Some name) f = Ok inf -> enveloped ext f.
Proof. exact native_enveloped. Qed.
Print Assumptions C41_placed.

(* ---- C52 ---- *)
(* a file made of blocks is loaded with these blocks, a later one over an earlier one, and zeros elsewhere *)
Theorem C52_sap_loads :
  forall fuel name head bs s inf, bytes (sap_file head bs) -> len (i_songPos (m_info s)) = 32 ->
    api_load fuel (m_info s) name (sap_file head bs) = Ok inf -> In (i_type inf) [SAP_B; SAP_C; SAP_D; SAP_S] ->
    i_headerLen inf = len head -> sap_blocks bs ->
    exists s', asap_load fuel name (sap_file head bs) s = Ok s' /\ m_info s' = inf
      /\ forall a, 0 <= a < 65536 -> ld (m_memory s') a = load (fun _ => 0) bs a.
Proof. exact sap_loads. Qed.
Print Assumptions C52_sap_loads.

(* only such files load *)
Theorem C52_sap_only :
  forall fuel name f s s', bytes f -> len (i_songPos (m_info s)) = 32 -> asap_load fuel name f s = Ok s' ->
    In (i_type (m_info s')) [SAP_B; SAP_C; SAP_D; SAP_S] ->
    exists head bs, f = sap_file head bs /\ len head = i_headerLen (m_info s') /\ bs <> [] /\ Forall placed_block bs
      /\ forall a, 0 <= a < 65536 -> ld (m_memory s') a = load (fun _ => 0) bs a.
Proof. exact sap_only. Qed.
Print Assumptions C52_sap_only.

(* a native module is at its address, its player at the player's, they do not overlap, and the rest of the memory stays but for one byte *)
Theorem C52_native_memory :
  forall fuel name ext f s s', In ext native_exts -> named name ext -> bytes f -> len (i_songPos (m_info s)) = 32 ->
    asap_load fuel (Some name) f s = Ok s' ->
    let t := i_type (m_info s') in let c := i_channels (m_info s') in
    routine_start t c + len (routine_code t c) <= music_start ext f /\ music_start ext f + len (music_data ext f) <= 65536 /\
    (forall i, 0 <= i < len (music_data ext f) -> ld (m_memory s') (music_start ext f + i) = at_ (music_data ext f) i) /\
    (forall i, 0 <= i < len (routine_code t c) -> ld (m_memory s') (routine_start t c + i) = at_ (routine_code t c) i) /\
    (forall a, 0 <= a < 65536 -> ~ (music_start ext f <= a < music_start ext f + len (music_data ext f)) ->
       ~ (routine_start t c <= a < routine_start t c + len (routine_code t c)) -> ld (m_memory s') a = if a =? 19456 then 0 else ld (m_memory s) a).
Proof. exact native_memory. Qed.
Print Assumptions C52_native_memory.

(* and it is loaded unless it would be over the player *)
Theorem C52_native_loads :
  forall fuel name ext f s inf, In ext native_exts -> ext <> rmt_ext -> ext <> fc_ext -> named name ext -> bytes f -> len (i_songPos (m_info s)) = 32 ->
    api_load fuel (m_info s) (Some name) f = Ok inf ->
    if file_word f 2 <? routine_start (i_type inf) (i_channels inf) + len (routine_code (i_type inf) (i_channels inf))
    then asap_load fuel (Some name) f s = Fail
    else exists s', asap_load fuel (Some name) f s = Ok s'.
Proof. exact native_loads. Qed.
Print Assumptions C52_native_loads.

(* a SAP file without its last byte is read past its end *)
Theorem C52_cut_refuted :
  exists f s, bytes f /\ asap_load 100 (Some (str "x.sap"%string)) f s = UB UbRead.
Proof. exists cut, blank_asap. split; apply cut_overread. Qed.
Print Assumptions C52_cut_refuted.

(* a long FC module, or RMT music with names at the end of the memory, is stored past the end of the memory *)
Theorem C52_fc_refuted :
  exists f s, bytes f /\ len f <= 65000 /\ asap_load 1000 (Some (str "x.fc"%string)) f s = UB UbWrite.
Proof. exists fc_long, blank_asap. destruct fc_overwrite as (H1 & H2 & H3). split; [exact H1|]. split; [rewrite H2; discriminate|exact H3]. Qed.
Print Assumptions C52_fc_refuted.

Theorem C52_rmt_refuted :
  exists f s, bytes f /\ asap_load 1000 (Some (str "x.rmt"%string)) f s = UB UbWrite.
Proof. exists rmt_high, blank_asap. exact rmt_overwrite. Qed.
Print Assumptions C52_rmt_refuted.

Example C52_sap_example :
  bytes (sap_file sap_head two_blocks) /\ sap_blocks two_blocks /\
  exists s', asap_load 100 (Some (str "x.sap"%string)) (sap_file sap_head two_blocks) blank_asap = Ok s' /\ i_headerLen (m_info s') = len sap_head
    /\ map (ld (m_memory s')) [1535; 1536; 1537; 1538; 1539; 1540; 1541] = [0; 1; 2; 7; 8; 9; 0].
Proof. destruct two_blocks_ok. split; [assumption|]. split; [assumption|exact two_blocks_loaded]. Qed.

Example C52_native_example :
  exists s', asap_load 85 (Some (str "x.cmc"%string)) cmc_file blank_asap = Ok s' /\ 0 < len (music_data (str "cmc"%string) cmc_file)
    /\ music_start (str "cmc"%string) cmc_file = 8192 /\ routine_start CMC 1 = 1280 /\ ld (m_memory s') 1280 = 76 /\ ld (m_memory s') 8211 = at_ cmc_file 25.
Proof. exact cmc_placed. Qed.
