(* Concrete modules saved as SAP, for the examples and refutations of PropertiesExport.v *)
From Coq Require Import String.
From Verif Require Import Base BaseFacts MemModel InfoModel InfoSpec NativeModel WriterModel FlashPackModel WriteModel WindowSpec SapSpec NativeSpec LoadSpec PokeyModel MachineModel PlayModel CpuSpec CpuProofs CallSpec
  SapWitness MachineWitness CpuWitness NativeWitness SaveWitness MoveWitness PlayWitness ExportSpec.

Definition big : wstate := mkW (repeat 7 (Z.to_nat 6000)) 0 6000.
(* load, edit, save as SAP, load the saved file *)
Definition save_sap (name : string) (edit : info -> info) (f : list Z) : outcome (list Z) :=
  inf <- loaded_as name f ;; '(b, w) <- api_write (str "y.sap") (edit inf) f false big ;; if (b : bool) then Ok (written big w) else Fail.
Definition reload (g : list Z) : outcome asap := asap_load 100 (Some (str "y.sap")) g blank_asap.
(* what the emulator does to run INIT, n instructions of it *)
Definition run_init (song : Z) (n : nat) (s : asap) : outcome asap :=
  executes n (set_m_s 253 (set_m_y 0 (set_m_x 0 (set_m_a song (set_m_pc (i_init (m_info s)) s))))).
Definition regs (s : asap) : list Z := [m_pc s; m_a s; m_x s; m_y s; m_s s].
Definition same (inf : info) : info := inf.

(* an RMT module at any address with any song lines *)
Definition rmt_at (base : Z) (song : list Z) : list Z :=
  let w k := [(base + k) mod 256; (base + k) / 256] in
  [255; 255] ++ w 0 ++ w (23 + len song) ++ str "RMT4" ++ [2; 1; 1; 1] ++ w 16 ++ w 18 ++ w 19 ++ w 24
  ++ [0; 0] ++ [(base + 20) mod 256; (base + 20) / 256] ++ [0; 0; 1; 0] ++ song
  ++ w (24 + len song) ++ w (29 + len song) ++ str "Tune" ++ [0; 0].
Definition one_song : list Z := [0; 255; 255; 255; 254; 0; 0; 64].
Definition two_songs : list Z := [0; 255; 255; 255; 254; 0; 0; 64] ++ [0; 255; 255; 255] ++ [254; 2; 0; 64].
(* the first line just jumps to itself, so the only song starts at the second one *)
Definition second_line : list Z := [254; 0; 0; 64] ++ [0; 255; 255; 255] ++ [254; 1; 0; 64].
(* TMC: one line, played twice per frame *)
Definition tmc_tune : list Z := pokes 36 [5; 2; 192] (pokes 102 [33] (pokes 166 [204] (pokes 294 [33] (pokes 452 [128; 128] (pokes 466 [255; 255] (block 8192 480 0)))))).
(* an RMT module whose first block ends two bytes before it begins *)
Definition rmt_backwards : list Z :=
  pokes 0 ([255; 255; 83; 82; 81; 82] ++ str "RMT4" ++ [2; 1; 1; 1] ++ [233; 82; 107; 82; 21; 83; 78; 82])
    (pokes 111 [221; 221; 221] (pokes 281 [83; 83; 83] (pokes 400 [0; 0; 1; 0] (repeat 0 517)))).

Lemma name_of ext : named (str "x." ++ ext) (map lower ext).
Proof. exists [120], ext. split; [reflexivity|]. split; [discriminate|reflexivity]. Qed.

(* saving is what [exported] says *)
Lemma save_edited ext f inf inf2 g : In ext native_exts -> map lower ext = ext -> bytes f -> api_load 3000 blank_info (Some (str "x." ++ ext)) f = Ok inf -> edited inf inf2 ->
  ('(b, w) <- api_write (str "y.sap") inf2 f false big ;; if (b : bool) then Ok (written big w) else Fail) = Ok g -> exported 3000 blank_info (str "x." ++ ext) ext f inf inf2 g.
Proof.
  intros He Hl Hb E Hed W. destruct (api_write (str "y.sap") inf2 f false big) as [[b w]|r|r|] eqn:EW; cbn [bind] in W; try discriminate W. destruct b; [|discriminate W]. injection W as W.
  split; [exact He|rewrite <- Hl at 2; apply name_of|exact Hb|reflexivity|exact E|exact Hed|]. exists (str "y.sap"), false, big, w.
  split; [exists [121], sap_ext; split; [reflexivity|]; split; [discriminate|reflexivity]|]. split; [vm_compute; repeat split; discriminate|]. split; [exact EW|now symmetry].
Qed.
Lemma save_exported ext f inf g : In ext native_exts -> map lower ext = ext -> bytes f -> api_load 3000 blank_info (Some (str "x." ++ ext)) f = Ok inf ->
  ('(b, w) <- api_write (str "y.sap") inf f false big ;; if (b : bool) then Ok (written big w) else Fail) = Ok g -> exported 3000 blank_info (str "x." ++ ext) ext f inf inf g.
Proof. intros He Hl Hb E W. exact (save_edited _ _ _ _ _ He Hl Hb E (EdNone _) W). Qed.

Ltac faith := split; [discriminate|discriminate|discriminate|apply Forall_forall; intros d Hd; vm_compute in Hd; intuition (subst; reflexivity)
  |reflexivity|apply bytesb_spec; reflexivity|vm_compute; discriminate|intros _; split; reflexivity|intros Q; vm_compute; first [discriminate | vm_compute in Q; discriminate Q]|intros Q; vm_compute in Q; discriminate Q].
Lemma two_songs_exported : exists inf g, exported 3000 blank_info (str "x.rmt") rmt_ext (rmt_at 16384 two_songs) inf inf g /\ faithful rmt_ext (rmt_at 16384 two_songs) inf inf /\ i_songs inf = 2.
Proof.
  do 2 eexists. split; [apply (save_exported rmt_ext); [vm_compute; tauto|reflexivity|apply bytesb_spec; vm_compute; reflexivity|vm_compute; reflexivity|vm_compute; reflexivity]|].
  split; [|reflexivity]. faith.
Qed.
Lemma tmc_exported : exists inf g, exported 3000 blank_info (str "x.tmc") (str "tmc") tmc_tune inf inf g /\ faithful (str "tmc") tmc_tune inf inf /\ i_type inf = TMC.
Proof.
  do 2 eexists. split; [apply (save_exported (str "tmc")); [vm_compute; tauto|reflexivity|apply bytesb_spec; vm_compute; reflexivity|vm_compute; reflexivity|vm_compute; reflexivity]|].
  split; [|reflexivity]. faith.
Qed.

(* song 1 of the saved file: the player is entered with its position, 2, and the address of the module *)
Lemma two_songs_run :
  result regs (g <- save_sap "x.rmt" same (rmt_at 16384 two_songs) ;; s <- reload g ;; run_init 0 5 s) = Some [1536; 0; 0; 64; 253] /\
  result regs (g <- save_sap "x.rmt" same (rmt_at 16384 two_songs) ;; s <- reload g ;; run_init 1 5 s) = Some [1536; 2; 0; 64; 253].
Proof. split; vm_compute; reflexivity. Qed.
(* TMC: the first call, and the player entry chosen by two calls of the player after that *)
Lemma tmc_runs :
  result (fun s => (regs s, i_init (m_info s), i_player (m_info s))) (g <- save_sap "x.tmc" same tmc_tune ;; s <- reload g ;; run_init 0 4 s) = Some ([1280; 112; 32; 0; 251], 1255, 1271).
Proof. vm_compute. reflexivity. Qed.

(* refutations *)
Lemma zeros_not_loadable : exists f inf g, exported 3000 blank_info (str "x.rmt") rmt_ext f inf inf g /\ at_ f 0 = 0 /\ at_ f 1 = 0 /\ reload g = Fail.
Proof.
  exists rmt_zeros. do 2 eexists. split; [apply (save_exported rmt_ext); [vm_compute; tauto|reflexivity|apply bytesb_spec; vm_compute; reflexivity|vm_compute; reflexivity|vm_compute; reflexivity]|].
  repeat split; vm_compute; reflexivity.
Qed.
Lemma moved_elsewhere : exists f inf inf2 g s, exported 3000 blank_info (str "x.cmc") (str "cmc") f inf inf2 g /\ api_set_music_address inf 20480 = (true, inf2) /\ reload g = Ok s /\
  i_music (m_info s) = 20480 /\ at_ f 25 = 6 /\ ld (m_memory s) (20480 + 19) = 0 /\ ld (m_memory s) (8192 + 19) = 6.
Proof.
  exists cmc_file. do 4 eexists. split.
  - eapply save_edited; [vm_compute; tauto|reflexivity|apply bytesb_spec; vm_compute; reflexivity|vm_compute; reflexivity|apply (EdMusic _ _ 20480 true _ (EdNone _)); vm_compute; reflexivity|vm_compute; reflexivity].
  - repeat (split; [vm_compute; reflexivity|]). vm_compute. reflexivity.
Qed.
Lemma wrong_position : exists f inf g s u, exported 3000 blank_info (str "x.rmt") rmt_ext f inf inf g /\ faithful rmt_ext f inf inf /\ i_songs inf = 1 /\ at_ (i_songPos inf) 0 = 1 /\
  reload g = Ok s /\ run_init 0 4 s = Ok u /\ m_pc u = 1536 /\ m_a u = 0.
Proof.
  exists (rmt_at 16384 second_line). do 4 eexists. split; [apply (save_exported rmt_ext); [vm_compute; tauto|reflexivity|apply bytesb_spec; vm_compute; reflexivity|vm_compute; reflexivity|vm_compute; reflexivity]|].
  split; [faith|].
  repeat (split; [vm_compute; reflexivity|]). vm_compute; reflexivity.
Qed.
Lemma overwritten : exists f inf g s, exported 3000 blank_info (str "x.rmt") rmt_ext f inf inf g /\ faithful rmt_ext f inf inf /\ i_music inf = 3200 /\ at_ f 6 = 82 /\ reload g = Ok s /\ ld (m_memory s) 3200 = 169.
Proof.
  exists (rmt_at 3200 one_song). do 3 eexists. split; [apply (save_exported rmt_ext); [vm_compute; tauto|reflexivity|apply bytesb_spec; vm_compute; reflexivity|vm_compute; reflexivity|vm_compute; reflexivity]|].
  split; [faith|].
  repeat (split; [vm_compute; reflexivity|]). vm_compute; reflexivity.
Qed.
Lemma backwards_not_loadable : exists f inf g, exported 3000 blank_info (str "x.rmt") rmt_ext f inf inf g /\ at_ f 0 = 255 /\ at_ f 1 = 255 /\ file_word f 4 < file_word f 2 /\ reload g = Fail.
Proof.
  exists rmt_backwards. do 2 eexists. split; [apply (save_exported rmt_ext); [vm_compute; tauto|reflexivity|apply bytesb_spec; vm_compute; reflexivity|vm_compute; reflexivity|vm_compute; reflexivity]|].
  repeat split; vm_compute; reflexivity.
Qed.
