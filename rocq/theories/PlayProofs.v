(* Loading a module and starting a song makes a machine that can play; the calls of a session keep it playing *)
From Verif Require Import Base BaseFacts Loop MemModel InfoModel NativeModel InfoSpec InfoProofs NativeSpec SapSpec NativeLoadProofs Resources WriterModel
  PokeyModel MachineModel PlayModel CpuProofs PokeyProofs MachineProofs FrameProofs WriterProofs StoreProofs PlaySpec PokeyFacts GenerateProofs.

(* ---- ASAP_Load ---- *)
Lemma wr_list_ok m a l m' : byte_mem m -> bytes l -> wr_list m a l = Ok m' -> byte_mem m'.
Proof. unfold wr_list. intros Hm Hl. destruct (_ && _); [|discriminate]. intros E. injection E as <-. now apply byte_mem_st_list. Qed.
Lemma get_range_bytes l i j r : bytes l -> get_range l i j = Ok r -> bytes r.
Proof. intros H E. unfold get_range in E. destruct (_ <? 0); [discriminate|]. destruct (_ || _); [discriminate|]. injection E as <-. now apply bytes_slice. Qed.

Lemma load_blocks_bytes module i m m' : bytes module -> byte_mem m -> load_blocks module i m = Ok m' -> byte_mem m'.
Proof.
  intros Hb Hm E. unfold load_blocks in E. rewrite loopZ_loop in E. revert i m Hm E. generalize (Nat.pred (Pos.to_nat (Z.to_pos (len module + 1)))) as n.
  assert (ST : forall i m r, byte_mem m -> load_block module (i, m) = Ok r -> match r with inl (_, m1) => byte_mem m1 | inr m1 => byte_mem m1 end).
  { intros i m r Hm E. unfold load_block in E. destruct (_ <=? _); [|discriminate E].
    destruct (get_word module i) as [a| | |]; cbn [bind] in E; try discriminate E.
    destruct (get_word module (i + 2)) as [z| | |]; cbn [bind] in E; try discriminate E. cbv zeta in E.
    destruct (_ || _); [discriminate E|].
    destruct (get_range module (i + 4) _) as [l| | |] eqn:G; cbn [bind] in E; try discriminate E. apply get_range_bytes in G; [|exact Hb].
    destruct (wr_list m a l) as [m1| | |] eqn:W; cbn [bind] in E; try discriminate E. apply wr_list_ok in W; [|exact Hm|exact G].
    destruct (_ =? _); [injection E as <-; exact W|].
    match type of E with bind ?x _ = _ => destruct x as [ff| | |] end; cbn [bind] in E; try discriminate E. injection E as <-. exact W. }
  induction n as [|n IH]; intros i m Hm E; cbn [loop] in E; destruct (load_block module (i, m)) as [r| | |] eqn:L; cbn [bind] in E; try discriminate E;
    apply ST in L; try exact Hm; destruct r as [[i1 m1]|m1]; try discriminate E; try (injection E as <-; exact L). exact (IH _ _ L E).
Qed.

Lemma player_bytes inf r : player_routine inf = Some r -> bytes r.
Proof.
  assert (X : forallb bytesb [res_cmc_obx; res_cm3_obx; res_cmr_obx; res_cms_obx; res_dlt_obx; res_mpt_obx; res_rmt4_obx; res_rmt8_obx; res_tmc_obx; res_tm2_obx; res_fc_obx] = true) by (vm_compute; reflexivity).
  rewrite forallb_forall in X. intros E. apply bytesb_spec, X. unfold player_routine in E.
  destruct (i_type inf); try discriminate E; try destruct (_ =? 1); injection E as <-; cbn [In]; tauto.
Qed.

(* what is left of the object by a load *)
Definition loaded_from (s s' : asap) : Prop := s' = set_m_memory (m_memory s') (set_m_info (m_info s') s).
Record loadable (inf : info) : Prop := mkLoadable {
  ld_channels : i_channels inf = 1 \/ i_channels inf = 2;
  ld_songs : 0 <= i_songs inf <= 32
}.

Lemma asap_load_ok fuel name module s s' : bytes module -> byte_mem (m_memory s) -> len (i_songPos (m_info s)) = 32 -> asap_load fuel name module s = Ok s' ->
  byte_mem (m_memory s') /\ loadable (m_info s') /\ loaded_from s s'.
Proof.
  intros Hb Hm Hp E. unfold asap_load in E.
  pose proof (api_load_any_fuel (fun _ => True) fuel (m_info s) name module (any_post module)
    (load_any (fun _ => True) _ (m_info s) name module I I Hb Hp (plenty_enough fuel module))) as W.
  destruct (api_load fuel (m_info s) name module) as [inf| | |]; cbn [bind] in E; try discriminate E. cbn [wpg] in W.
  assert (L : loadable inf).
  { destruct W as [W|(ext & _ & W & _)]; constructor; [pose proof (sl_channels _ _ W); lia|pose proof (sl_songs _ _ W); lia|pose proof (nl_channels _ W); lia|pose proof (nl_songs _ W); lia]. }
  clear W. destruct (player_routine inf) as [r|] eqn:PR.
  - apply player_bytes in PR. destruct (get_word r 2) as [p| | |]; cbn [bind] in E; try discriminate E. destruct (get_word r 4) as [q| | |]; cbn [bind] in E; try discriminate E.
    cbv zeta in E. destruct (_ <=? q); [discriminate E|].
    match type of E with bind ?x _ = _ => destruct x as [l| | |] eqn:G end; cbn [bind] in E; try discriminate E. apply get_range_bytes in G; [|exact Hb].
    match type of E with bind ?x _ = _ => destruct x as [m1| | |] eqn:W1 end; cbn [bind] in E; try discriminate E.
    apply wr_list_ok in W1; [|apply byte_mem_st; [exact Hm|unfold byte; lia]|exact G].
    match type of E with bind ?x _ = _ => destruct x as [code| | |] eqn:G2 end; cbn [bind] in E; try discriminate E. apply get_range_bytes in G2; [|exact PR].
    match type of E with bind ?x _ = _ => destruct x as [m2| | |] eqn:W2 end; cbn [bind] in E; try discriminate E. apply wr_list_ok in W2; [|exact W1|exact G2].
    injection E as <-. split; [exact W2|]. split; [|reflexivity]. cbn [m_info set_m_memory set_m_info]. destruct L. destruct (_ <? 0); constructor; assumption.
  - match type of E with bind ?x _ = _ => destruct x as [m1| | |] eqn:W1 end; cbn [bind] in E; try discriminate E. apply load_blocks_bytes in W1; [|exact Hb|apply byte_mem_mem0].
    injection E as <-. split; [exact W1|]. split; [exact L|reflexivity].
Qed.

(* ---- sample rates ---- *)
Definition buffer_size (rate : Z) : Z := Z.quot (rate * 312 * 114) 1773447 + 32 + 2.
Definition step_of (ntsc : bool) (rate : Z) : Z := if ntsc then (rate * 8192 + 27965) / 55930 else (rate * 8192 + 27710) / 55420.
Definition cycles_of (ntsc : bool) : Z := if ntsc then 29868 else 35568.

Section Play.
Variable B : ub_reason -> Prop.
Hypothesis HO : B UbOverflow.
Hypothesis HR : B UbRead.

(* samples enough for the buffer, and not too many *)
Record rate_ok (ntsc : bool) (rate : Z) : Prop := mkRateOk {
  ro_pos : 1 <= rate;
  ro_enough : forall o, 0 <= o < 262144 -> let e := (o + cycles_of ntsc * step_of ntsc rate) / 262144 in 1 <= e /\ trail B (buffer_size rate) e;
  ro_room : B UbWrite \/ ((cycles_of ntsc + 24) * step_of ntsc rate + 262143) / 262144 + 32 <= buffer_size rate
}.

Notation Szs rate := (sizes B (buffer_size rate)).

Lemma initialize_live rate p0 : 1 <= rate ->
  wpg B False (pokey_initialize rate p0) (fun p => forall pp limit, safe_write B (room pp limit (buffer_size rate)) -> live B (Szs rate) pp limit p).
Proof.
  intros HRt. unfold pokey_initialize. fold (buffer_size rate). cbv zeta.
  assert (NN : 34 <= buffer_size rate) by (unfold buffer_size; rewrite Z.quot_div_nonneg by lia; pose proof (Z.div_pos (rate * 312 * 114) 1773447 ltac:(lia) ltac:(lia)); lia).
  destruct (_ <? 0) eqn:E; [lia|]. destruct (rate =? 0) eqn:E0; [lia|]. clear E E0.
  set (n := buffer_size rate) in *. unfold start_frame. cbv zeta. cbn [pk_deltaBuffer pk_trailing].
  assert (L : len (repeat 0 (Z.to_nat n)) = n) by (unfold len; rewrite repeat_length; lia). rewrite L. rewrite get_range_ok by lia. cbn [bind].
  replace (n - n) with 0 by lia. cbn [Z.ltb Z.compare andb wpg]. intros pp limit RM.
  set (b := _ ++ _). assert (LB : len b = n) by (unfold b; rewrite len_app, len_slice by lia; unfold len at 1; rewrite repeat_length; lia).
  assert (C : chan_ok channel_initialize) by (constructor; cbn; unfold byte, never; lia).
  constructor.
  - constructor; try exact C; cbn; unfold byte; lia.
  - cbn [pk_deltaBuffer set_pk_deltaBuffer]. rewrite LB. exact RM.
  - left. exact HR.
  - unfold sized, sizes. cbn [pk_trailing set_pk_deltaBuffer pk_deltaBuffer]. rewrite LB. split; [reflexivity|]. unfold trail. split; [lia|]. right. lia.
Qed.

Lemma set_mute_ok b m c ch : 0 <= c -> chan_ok ch -> chan_ok (set_mute b m c ch).
Proof.
  intros Hc []. unfold set_mute. destruct b; [constructor; cbn; try assumption; unfold never; lia|]. cbv zeta. destruct (_ && _); constructor; cbn; assumption.
Qed.
Lemma live_pokey_mute Sz mask pp limit p : live B Sz pp limit p -> live B Sz pp limit (pokey_mute mask p).
Proof.
  intros [L1 L2 L3 L4]. unfold pokey_mute. cbv zeta. constructor.
  - destruct L1. constructor; cbn; try assumption; apply set_mute_ok; try assumption; lia.
  - exact L2.
  - left. exact HR.
  - exact L4.
Qed.

Definition fits (rate : Z) (s : asap) : Prop := pp_sampleFactor (m_pokeys s) = step_of (i_ntsc (m_info s)) rate.

(* the parts that a song starts with *)
Definition started_pair (ntsc stereo : bool) (rate : Z) (pp pp' : pokeyPair) : Prop :=
  fixed pp' = (if stereo then 16 else 0, rate, pp_sincLookup pp, step_of ntsc rate, 0, 0, 0).

Lemma factor_step (ntsc : bool) rate f : 1 <= rate -> get_sample_factor rate (if ntsc then 1789772 else 1773447) = Ok f -> f = step_of ntsc rate.
Proof.
  intros H E. unfold get_sample_factor in E. destruct (chk (Z.shiftl rate 13)) as [a| | |] eqn:A; cbn [bind] in E; try discriminate E. apply chk_inv in A. destruct A as [-> _].
  match type of E with bind ?x _ = _ => destruct x as [b| | |] eqn:C end; cbn [bind] in E; try discriminate E. apply chk_inv in C. destruct C as [-> _].
  rewrite Z.shiftl_mul_pow2 in E by lia. change (2 ^ 13) with 8192 in E. unfold step_of. injection E as <-.
  destruct ntsc.
  - change (Z.shiftr 1789772 6) with 27965. change (Z.shiftr 1789772 5) with 55930. apply Z.quot_div_nonneg; lia.
  - change (Z.shiftr 1773447 6) with 27710. change (Z.shiftr 1773447 5) with 55420. apply Z.quot_div_nonneg; lia.
Qed.

Lemma pair_initialize_ok (ntsc stereo : bool) rate pp : rate_ok ntsc rate ->
  wpg B False (pair_initialize ntsc stereo rate pp) (fun pp' => started_pair ntsc stereo rate pp pp' /\
    live B (Szs rate) pp' (cycles_of ntsc + 24) (pp_basePokey pp') /\ live B (Szs rate) pp' (cycles_of ntsc + 24) (pp_extraPokey pp')).
Proof.
  intros [R1 R2 R3]. unfold pair_initialize. apply wpg_bind. eapply wpg_mono; [apply initialize_live; exact R1|]. intros p1 L1.
  apply wpg_bind. eapply wpg_mono; [apply initialize_live; exact R1|]. intros p2 L2. apply wpg_bind.
  eapply wpg_mono with (P := fun f => f = step_of ntsc rate).
  - destruct (get_sample_factor rate (if ntsc then 1789772 else 1773447)) as [f| |r|] eqn:E; cbn [wpg].
    + now apply factor_step.
    + exact I.
    + unfold get_sample_factor in E. unfold chk in E. repeat (destruct (is_int _); cbn [bind] in E; [|injection E as <-; exact HO]). discriminate E.
    + unfold get_sample_factor in E. unfold chk in E. repeat (destruct (is_int _); cbn [bind] in E; [|discriminate E]). discriminate E.
  - intros f ->. cbn [wpg]. set (pp' := mkPokeyPair _ _ _ _ _ _ _ _ _).
    assert (RM : safe_write B (room pp' (cycles_of ntsc + 24) (buffer_size rate))).
    { destruct R3 as [R3|R3]; [left; exact R3|right]. unfold room, pp'. cbn [pp_sampleFactor pp_sampleOffset].
      assert (0 <= step_of ntsc rate) by (unfold step_of; destruct ntsc; apply Z.div_pos; lia).
      split; [assumption|]. split; [lia|]. split; [destruct ntsc; cbn; lia|exact R3]. }
    split; [reflexivity|]. split; [now apply L1|now apply L2].
Qed.

(* ---- ASAP_PlaySong ---- *)
Definition song_settings (s : asap) := (m_info s, m_currentSong s, m_currentDuration s, m_blocksPlayed s, m_currentSampleRate s, m_silenceCycles s, fixed (m_pokeys s)).

Lemma tmc_any s : tmc_ok B s. Proof. intros _. left. exact HR. Qed.
Lemma cycles_of_info s : cycles_of (i_ntsc (m_info s)) + 24 = last_cycle s. Proof. reflexivity. Qed.

Lemma frame_6502_ok rate s : machine_ok B (Szs rate) s -> wpg B False (do_6502_frame s) (fun s' => machine_ok B (Szs rate) s' /\ still s' = still s).
Proof. intros M. apply (do_6502_frame_ok B False HO (Szs rate)); [apply tmc_any|exact M|left; exact HR]. Qed.

Lemma init_frames_ok rate n : forall s, machine_ok B (Szs rate) s ->
  wpg B False (init_frames n s) (fun r => machine_ok B (Szs rate) (snd r) /\ still (snd r) = still s).
Proof.
  induction n as [|n IH]; intros s M; cbn [init_frames]; [cbn [wpg snd]; now split|].
  apply wpg_bind. eapply wpg_mono; [apply frame_6502_ok; exact M|]. intros s1 [M1 S1]. destruct (_ =? _); [cbn [wpg snd]; now split|].
  eapply wpg_mono; [apply IH; exact M1|]. intros r [M2 S2]. split; [exact M2|congruence].
Qed.

Lemma land_255_byte v : byte (Z.land v 255).
Proof. change 255 with (2 ^ 8 - 1). rewrite land_ones_mod by lia. change (2 ^ 8) with 256. unfold byte. pose proof (Z.mod_pos_bound v 256). lia. Qed.

(* all that the initialisation needs of the machine: the flags, the memory and the POKEYs *)
Record primed (rate : Z) (s : asap) : Prop := mkPrimed {
  pr_nz : 0 <= m_nz s < 512;
  pr_c : 0 <= m_c s < 2;
  pr_vdi : Z.land (m_vdi s) 76 = m_vdi s;
  pr_mem : byte_mem (m_memory s);
  pr_cycle : 0 <= m_cycle s;
  pr_base : live B (Szs rate) (m_pokeys s) (last_cycle s) (pp_basePokey (m_pokeys s));
  pr_extra : live B (Szs rate) (m_pokeys s) (last_cycle s) (pp_extraPokey (m_pokeys s))
}.
Lemma machine_primed rate s : machine_ok B (Szs rate) s -> primed rate s.
Proof. intros [[] C L1 L2]. constructor; assumption. Qed.

Lemma do_6502_init_ok rate pc a x y s : primed rate s ->
  wpg B False (do_6502_init pc a x y s) (fun r => machine_ok B (Szs rate) (snd r) /\ still (snd r) = still s).
Proof.
  intros [P1 P2 P3 P4 P5 P6 P7]. unfold do_6502_init. cbv zeta. set (s1 := set_m_s 253 _).
  assert (S1 : still s1 = still s) by reflexivity.
  eapply wpg_mono; [apply (init_frames_ok rate 50 s1)|intros r [M S]; split; [exact M|congruence]].
  constructor; [|exact P5|exact P6|exact P7]. assert (BM : byte_mem (st (st (st (m_memory s) 53760 210) 510 255) 511 209)) by (repeat (apply byte_mem_st; [|unfold byte; lia]); exact P4).
  constructor; try assumption; try apply land_255_byte. unfold s1. cbn [m_s set_m_s]. unfold byte. lia.
Qed.
Lemma then_init_ok rate s pc a x y m : wpg B False m (fun r => machine_ok B (Szs rate) (snd r) /\ still (snd r) = still s) ->
  wpg B False (then_init pc a x y m) (fun r => machine_ok B (Szs rate) (snd r) /\ still (snd r) = still s).
Proof.
  intros H. unfold then_init. apply wpg_bind. eapply wpg_mono; [exact H|]. intros [b s1] [M S]. cbn [snd] in *. destruct b; [|cbn [wpg snd]; now split].
  eapply wpg_mono; [apply do_6502_init_ok; apply machine_primed; exact M|]. intros r [M2 S2]. split; [exact M2|congruence].
Qed.

Lemma play_init_ok rate song s : byte song -> primed rate s ->
  wpg B False (play_init song s) (fun r => machine_ok B (Szs rate) (snd r) /\ still (snd r) = still s).
Proof.
  intros Hsong P. unfold play_init. cbv zeta.
  destruct (i_type (m_info s)); match goal with
    | |- wpg _ _ (do_6502_init _ _ _ _ _) _ => apply do_6502_init_ok; exact P
    | |- wpg _ _ (then_init _ _ _ _ _) _ => apply then_init_ok, do_6502_init_ok; exact P
    | |- _ => idtac end.
  - destruct P as [P1 P2 P3 P4 P5 P6 P7]. cbn [wpg snd]. split; [|reflexivity]. constructor; [|exact P5|exact P6|exact P7]. constructor; cbn; try assumption; unfold byte; lia.
  - destruct P as [P1 P2 P3 P4 P5 P6 P7]. cbn [wpg snd]. split; [|reflexivity]. constructor; [|exact P5|exact P6|exact P7]. constructor; cbn; try assumption; unfold byte; lia.
  - apply wpg_bind, wpg_get; [|right; exact HR]. intros _. apply do_6502_init_ok; exact P.
  - apply wpg_bind, wpg_get; [|right; exact HR]. intros _. apply then_init_ok, do_6502_init_ok; exact P.
  - apply wpg_bind, wpg_get; [|right; exact HR]. intros _. apply do_6502_init_ok; exact P.
  - apply wpg_bind. eapply wpg_mono; [apply (then_init_ok rate s), do_6502_init_ok; exact P|]. intros [b s1] [M S]. cbn [wpg snd] in *.
    split; [|destruct b; exact S]. destruct b; [|exact M]. destruct M as [[] M2 M3 M4]. constructor; try assumption. constructor; assumption.
  - apply wpg_bind. eapply wpg_mono; [apply (then_init_ok rate s), do_6502_init_ok; exact P|]. intros [b s1] [M S]. cbn [wpg snd] in *.
    split; [|destruct b; exact S]. destruct b; [|exact M]. destruct M as [[] M2 M3 M4]. constructor; try assumption. constructor; assumption.
Qed.

Lemma mute_fixed mask s : fixed (m_pokeys (api_mute mask s)) = fixed (m_pokeys s). Proof. reflexivity. Qed.
Lemma mute_machine Sz mask s : machine_ok B Sz s -> machine_ok B Sz (api_mute mask s).
Proof.
  intros [[] M2 M3 M4]. constructor; [constructor; assumption|exact M2| |].
  - cbn. apply live_pair with (m_pokeys s); try reflexivity. now apply live_pokey_mute.
  - cbn. apply live_pair with (m_pokeys s); try reflexivity. now apply live_pokey_mute.
Qed.

Definition playable (s : asap) : Prop := byte_mem (m_memory s) /\ loadable (m_info s).

(* a song that has started: nothing played, no samples ready *)
Record started (rate song duration : Z) (s0 s : asap) : Prop := mkStarted {
  sd_machine : machine_ok B (Szs rate) s;
  sd_info : m_info s = m_info s0;
  sd_song : m_currentSong s = song;
  sd_duration : m_currentDuration s = duration;
  sd_played : m_blocksPlayed s = 0;
  sd_rate : m_currentSampleRate s = rate;
  sd_silence : m_silenceCycles s = m_silenceCycles s0;
  sd_counter : m_silenceCyclesCounter s = m_silenceCycles s0;
  sd_pair : fixed (m_pokeys s) = (if 1 <? i_channels (m_info s0) then 16 else 0, rate, pp_sincLookup (m_pokeys s0), step_of (i_ntsc (m_info s0)) rate, 0, 0, 0)
}.

Lemma play_song_started song duration s : playable s -> rate_ok (i_ntsc (m_info s)) (m_currentSampleRate s) ->
  wpg B False (api_play_song song duration s) (fun r => let '(b, s') := r in
    (b = true -> started (m_currentSampleRate s) song duration s s') /\ (b = true -> 0 <= song < i_songs (m_info s)) /\
    (b = false -> s' = s \/ byte_mem (m_memory s') /\ m_info s' = m_info s /\ m_currentSampleRate s' = m_currentSampleRate s /\ m_silenceCycles s' = m_silenceCycles s)).
Proof.
  intros [Hm [L1 L2]] R. unfold api_play_song. set (rate := m_currentSampleRate s) in *.
  destruct ((song <? 0) || (i_songs (m_info s) <=? song)) eqn:E; [cbn [wpg]; split; [discriminate|]; split; [discriminate|]; now left|].
  assert (SB : byte song) by (unfold byte; lia).
  unfold play_prepare. cbv zeta. set (s1 := set_m_covox _ _).
  change (i_ntsc (m_info s1)) with (i_ntsc (m_info s)). change (i_channels (m_info s1)) with (i_channels (m_info s)). change (m_currentSampleRate s1) with rate. change (m_pokeys s1) with (m_pokeys s).
  apply wpg_bind, wpg_bind. eapply wpg_mono; [apply pair_initialize_ok; exact R|]. intros pp (F & P1 & P2). cbn [wpg].
  apply wpg_bind. set (s2 := api_mute 255 (set_m_pokeys pp s1)).
  assert (PR : primed rate s2).
  { constructor; try (cbn; lia); try reflexivity; [exact Hm| |].
    - apply live_pair with pp; [reflexivity|reflexivity|]. change (live B (Szs rate) pp (cycles_of (i_ntsc (m_info s)) + 24) (pokey_mute 255 (pp_basePokey pp))). apply live_pokey_mute. exact P1.
    - apply live_pair with pp; [reflexivity|reflexivity|]. change (live B (Szs rate) pp (cycles_of (i_ntsc (m_info s)) + 24) (pokey_mute (Z.shiftr 255 4) (pp_extraPokey pp))). apply live_pokey_mute. exact P2. }
  eapply wpg_mono; [apply (play_init_ok rate song s2 SB PR)|]. intros [b s3] [M S]. cbn [snd wpg] in *.
  assert (T : settings s3 = settings s2 /\ fixed (m_pokeys s3) = fixed (m_pokeys s2)) by (unfold still in S; split; congruence). destruct T as [T1 T2].
  assert (U1 : settings s2 = (m_info s, song, duration, 0, m_silenceCycles s, m_silenceCycles s, rate)) by reflexivity. rewrite U1 in T1. clear U1.
  assert (U2 : fixed (m_pokeys s2) = fixed pp) by reflexivity. rewrite U2 in T2. clear U2. unfold started_pair in F. rewrite F in T2. clear F.
  unfold settings in T1. split; [|split; [lia|]].
  - intros ->. constructor.
    + destruct (mute_machine (Szs rate) 0 s3 M) as [[] M2 M3 M4]. constructor; try assumption. constructor; assumption.
    + cbn. congruence.
    + cbn. congruence.
    + cbn. congruence.
    + cbn. congruence.
    + cbn. congruence.
    + cbn. congruence.
    + cbn. congruence.
    + exact T2.
  - intros ->. right. split; [apply M|]. split; [congruence|]. split; congruence.
Qed.

Lemma started_playing rate song duration s0 s : rate_ok (i_ntsc (m_info s0)) rate -> started rate song duration s0 s -> playing B (buffer_size rate) s.
Proof.
  intros [R1 R2 R3] [M I1 _ _ P _ _ _ F].
  assert (F4 : pp_sampleFactor (m_pokeys s) = step_of (i_ntsc (m_info s0)) rate) by (unfold fixed in F; congruence).
  assert (F5 : pp_sampleOffset (m_pokeys s) = 0) by (unfold fixed in F; congruence).
  assert (F6 : pp_readySamplesStart (m_pokeys s) = 0) by (unfold fixed in F; congruence).
  assert (F7 : pp_readySamplesEnd (m_pokeys s) = 0) by (unfold fixed in F; congruence).
  constructor; [exact M| |lia|lia|left; exact F7|lia].
  intros o Ho. rewrite F4, I1. exact (R2 o Ho).
Qed.
End Play.
