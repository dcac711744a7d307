(* C57: native modules saved as SAP.  Nothing but statements here. *)
From Coq Require Import String.
From Verif Require Import Base BaseFacts MemModel InfoModel NativeModel WriterModel WriteModel WindowSpec SapSpec NativeSpec LoadSpec PokeyModel MachineModel PlayModel CpuSpec CpuProofs CpuFacts CallSpec
  SapWitness MachineWitness CpuWitness NativeWitness SaveWitness ExportSpec ExportPlay ExportWitness.

(* the saved file is loaded, with the same metadata *)
Theorem C57_saved :
  forall fuel self name ext f inf inf2 g, exported fuel self name ext f inf inf2 g -> faithful ext f inf inf2 ->
  forall fuel' s name', named name' sap_ext -> len (i_songPos (m_info s)) = 32 ->
  exists s', asap_load fuel' (Some name') g s = Ok s' /\ same_tune inf2 (m_info s') /\ i_type (m_info s') = sap_type_of (i_type inf) /\
    (sap_type_of (i_type inf) = SAP_C -> i_music (m_info s') = i_music inf).
Proof. exact saved_tune. Qed.
Print Assumptions C57_saved.

(* the module and the player routine are in memory where they are when the native module is played; only the added program
   and the names of an RMT module make a difference *)
Theorem C57_memory :
  forall fuel name ext f inf inf2 g s0 s1, exported fuel (m_info s0) name ext f inf inf2 g -> faithful ext f inf inf2 ->
  asap_load fuel (Some name) f s0 = Ok s1 -> (forall a, 0 <= a < 65536 -> ld (m_memory s0) a = 0) ->
  forall fuel' s name', named name' sap_ext -> len (i_songPos (m_info s)) = 32 ->
  exists s', asap_load fuel' (Some name') g s = Ok s' /\
    forall a, 0 <= a < 65536 -> ~ stub_lo (i_type inf) <= a < stub_hi (i_type inf) (i_songs inf) -> (i_type inf = RMT -> a <= file_word f 4) ->
      ld (m_memory s') a = ld (m_memory s1) a.
Proof. exact saved_memory. Qed.
Print Assumptions C57_memory.

(* what starting a song of a native module does: these entries of the player routine, with these registers *)
Theorem C57_started :
  forall song s b s', play_init song s = Ok (b, s') -> 0 <= song < 256 -> bytes (i_songPos (m_info s)) -> 0 <= i_music (m_info s) < 65536 ->
  match i_type (m_info s) with
  | SAP_D | SAP_S => True
  | SAP_B => started [Entry (i_init (m_info s)) (Some song) (Some 0) (Some 0)] s b s'
  | t => exists s2, started (player_inits t (i_player (m_info s)) (i_music (m_info s)) song (at_ (i_songPos (m_info s)) song)) s b s2 /\
      s' = match t with TMC | TM2 => if b then set_m_tmcPerFrameCounter 1 s2 else s2 | _ => s2 end
  end.
Proof. exact song_starts. Qed.
Print Assumptions C57_started.

(* the INIT routine of the saved file, executed by the 6502 model, makes the same calls *)
Theorem C57_init :
  forall fuel name ext f inf inf2 g s0 s1, exported fuel (m_info s0) name ext f inf inf2 g -> faithful ext f inf inf2 -> asap_load fuel (Some name) f s0 = Ok s1 -> sap_type_of (i_type inf) = SAP_B ->
  forall fuel' s name', named name' sap_ext -> len (i_songPos (m_info s)) = 32 ->
  exists s', asap_load fuel' (Some name') g s = Ok s' /\
    forall u song, cpu_ok u -> m_pc u = i_init (m_info s') -> m_a u = song -> 3 <= m_s u -> 0 <= song < i_songs inf -> intact (stub_lo (i_type inf)) (stub_hi (i_type inf) (i_songs inf)) s' u ->
      calls (intact (stub_lo (i_type inf)) (stub_hi (i_type inf) (i_songs inf)) u) (fun t => i_type inf = TMC -> in_step (at_ f 37) 1 (ld (m_memory t) 0)) (if module_type_eqb (i_type inf) TMC then [0] else []) (m_s u)
        (exported_inits (i_type inf) (i_player (m_info s1)) (i_music (m_info s1)) (i_songs inf) song (exported_pos (i_songs inf) (i_songPos inf) song)) u.
Proof. exact saved_init. Qed.
Print Assumptions C57_init.

(* these are the calls for the native module, with the registers that do not matter left as they are; except for the
   command that starts a TMC module with one song, and for a single song that does not start at position 0 *)
Theorem C57_same_calls :
  forall t player music songs songPos song, (t = TMC -> songs <> 1) -> (songs = 1 -> t = DLT \/ t = MPT \/ t = RMT -> song = 0 /\ at_ songPos 0 = 0) ->
  Forall2 refines (exported_inits t player music songs song (exported_pos songs songPos song)) (player_inits t player music song (at_ songPos song)).
Proof. exact same_calls. Qed.
Print Assumptions C57_same_calls.

(* all formats but TMC: the routine called periodically is that of the native module *)
Theorem C57_play :
  forall fuel name ext f inf inf2 g s0 s1, exported fuel (m_info s0) name ext f inf inf2 g -> faithful ext f inf inf2 -> asap_load fuel (Some name) f s0 = Ok s1 -> i_type inf <> TMC ->
  forall fuel' s name', named name' sap_ext -> len (i_songPos (m_info s)) = 32 ->
  exists s', asap_load fuel' (Some name') g s = Ok s' /\
    play_entry (i_type (m_info s')) (i_player (m_info s')) = play_entry (i_type (m_info s1)) (i_player (m_info s1)) /\
    (sap_type_of (i_type inf) = SAP_C -> forall song pos, player_inits (i_type (m_info s')) (i_player (m_info s')) (i_music (m_info s')) song pos = player_inits (i_type (m_info s1)) (i_player (m_info s1)) (i_music (m_info s1)) song pos).
Proof. exact saved_play. Qed.
Print Assumptions C57_play.

(* TMC: the counter that chooses between the entries +3 and +6 is kept by the saved program instead of the emulator, in step *)
Theorem C57_tmc :
  forall fuel name ext f inf inf2 g s0 s1, exported fuel (m_info s0) name ext f inf inf2 g -> faithful ext f inf inf2 -> asap_load fuel (Some name) f s0 = Ok s1 -> i_type inf = TMC ->
  forall fuel' s name', named name' sap_ext -> len (i_songPos (m_info s)) = 32 ->
  exists s', asap_load fuel' (Some name') g s = Ok s' /\ ld (m_memory s1) (i_music (m_info s1) + 31) = at_ f 37 /\
    forall u c, cpu_ok u -> m_pc u = i_player (m_info s') -> intact (stub_lo TMC) (stub_hi TMC (i_songs inf)) s' u -> in_step (at_ f 37) c (ld (m_memory u) 0) ->
      exists n u1, executes n u = Ok u1 /\ cpu_ok u1 /\ m_pc u1 = i_player (m_info s1) + (if 1 <=? c - 1 then 6 else 3) /\
        in_step (at_ f 37) (if 1 <=? c - 1 then c - 1 else at_ f 37) (ld (m_memory u1) 0) /\ m_s u1 = m_s u /\ (forall a, 1 <= a -> ld (m_memory u1) a = ld (m_memory u) a) /\ rest u1 = rest u.
Proof. exact saved_counts. Qed.
Print Assumptions C57_tmc.

Example C57_example_rmt : exists inf g, exported 3000 blank_info (str "x.rmt") rmt_ext (rmt_at 16384 two_songs) inf inf g /\ faithful rmt_ext (rmt_at 16384 two_songs) inf inf /\ i_songs inf = 2.
Proof. exact two_songs_exported. Qed.
Example C57_example_rmt_runs :
  result regs (g <- save_sap "x.rmt" same (rmt_at 16384 two_songs) ;; s <- reload g ;; run_init 0 5 s) = Some [1536; 0; 0; 64; 253] /\
  result regs (g <- save_sap "x.rmt" same (rmt_at 16384 two_songs) ;; s <- reload g ;; run_init 1 5 s) = Some [1536; 2; 0; 64; 253].
Proof. exact two_songs_run. Qed.
Example C57_example_tmc : exists inf g, exported 3000 blank_info (str "x.tmc") (str "tmc") tmc_tune inf inf g /\ faithful (str "tmc") tmc_tune inf inf /\ i_type inf = TMC.
Proof. exact tmc_exported. Qed.
Example C57_example_tmc_runs :
  result (fun s => (regs s, i_init (m_info s), i_player (m_info s))) (g <- save_sap "x.tmc" same tmc_tune ;; s <- reload g ;; run_init 0 4 s) = Some ([1280; 112; 32; 0; 251], 1255, 1271).
Proof. exact tmc_runs. Qed.

(* The limits.  A module that begins with the bytes 0, 0, which is accepted as a module, gives a SAP file that cannot be loaded *)
Theorem C57_zeros_refuted : exists f inf g, exported 3000 blank_info (str "x.rmt") rmt_ext f inf inf g /\ at_ f 0 = 0 /\ at_ f 1 = 0 /\ reload g = Fail.
Proof. exact zeros_not_loadable. Qed.
Print Assumptions C57_zeros_refuted.
(* so does an RMT module whose music ends before it begins *)
Theorem C57_backwards_refuted : exists f inf g, exported 3000 blank_info (str "x.rmt") rmt_ext f inf inf g /\ at_ f 0 = 255 /\ at_ f 1 = 255 /\ file_word f 4 < file_word f 2 /\ reload g = Fail.
Proof. exact backwards_not_loadable. Qed.
Print Assumptions C57_backwards_refuted.
(* after SetMusicAddress the saved file starts the player with the new address, but the module is still at the old one *)
Theorem C57_moved_refuted : exists f inf inf2 g s, exported 3000 blank_info (str "x.cmc") (str "cmc") f inf inf2 g /\ api_set_music_address inf 20480 = (true, inf2) /\ reload g = Ok s /\
  i_music (m_info s) = 20480 /\ at_ f 25 = 6 /\ ld (m_memory s) (20480 + 19) = 0 /\ ld (m_memory s) (8192 + 19) = 6.
Proof. exact moved_elsewhere. Qed.
Print Assumptions C57_moved_refuted.
(* a single song that does not start at position 0 is started at position 0 by the saved file *)
Theorem C57_position_refuted : exists f inf g s u, exported 3000 blank_info (str "x.rmt") rmt_ext f inf inf g /\ faithful rmt_ext f inf inf /\ i_songs inf = 1 /\ at_ (i_songPos inf) 0 = 1 /\
  reload g = Ok s /\ run_init 0 4 s = Ok u /\ m_pc u = 1536 /\ m_a u = 0.
Proof. exact wrong_position. Qed.
Print Assumptions C57_position_refuted.
(* the added program overwrites a module that is close above the player routine *)
Theorem C57_overwritten_refuted : exists f inf g s, exported 3000 blank_info (str "x.rmt") rmt_ext f inf inf g /\ faithful rmt_ext f inf inf /\ i_music inf = 3200 /\ at_ f 6 = 82 /\ reload g = Ok s /\ ld (m_memory s) 3200 = 169.
Proof. exact overwritten. Qed.
Print Assumptions C57_overwritten_refuted.
