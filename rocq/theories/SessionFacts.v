(* What callers can rely on while a song plays *)
From Verif Require Import Base BaseFacts Loop MemModel InfoModel PokeyModel MachineModel PlayModel CpuSpec CpuProofs PokeyProofs MachineProofs FrameProofs WriterModel
  WriterProofs StoreProofs PlaySpec SessionSpec PokeyFacts GenerateProofs PlayProofs SessionProofs.

Lemma any_tuned s : listening 59 262143 s -> tuned anything s /\ countable (m_currentDuration s) (m_currentSampleRate s) /\ 59 <= m_currentSampleRate s <= 262143.
Proof. intros H. apply (listening_tuned anything I I 59 262143 s); [|exact H]. intros ntsc rate R. now apply rate_any. Qed.
Lemma safe_tuned s : listening 2578 69704 s -> tuned overflow_or_read s.
Proof.
  intros H. apply (listening_tuned overflow_or_read (or_introl eq_refl) (or_intror eq_refl) 2578 69704 s); [|exact H].
  intros ntsc rate R. now apply rate_safe.
Qed.

Lemma generate_counts s buffer bufferLen f n buffer' s' :
  listening 59 262143 s -> 0 <= bufferLen <= len buffer -> bufferLen <= int_max -> api_generate buffer bufferLen f s = Ok (n, buffer', s') ->
  0 <= n <= bufferLen /\ (block_size f s | n) /\ len buffer' = len buffer /\ (forall i, n <= i < len buffer -> at_ buffer' i = at_ buffer i)
  /\ api_blocks_played s' = api_blocks_played s + n / block_size f s
  /\ (0 < m_currentDuration s -> api_blocks_played s' <= blocks_in (m_currentDuration s) (m_currentSampleRate s))
  /\ (n / block_size f s < bufferLen / block_size f s ->
      0 < m_silenceCycles s /\ m_silenceCyclesCounter s' <= 0
      \/ 0 < m_currentDuration s /\ api_blocks_played s' = blocks_in (m_currentDuration s) (m_currentSampleRate s)).
Proof.
  intros L Hb Hm E. destruct (any_tuned s L) as (T & C & R). pose proof (block_size_pos anything f s T) as BS.
  pose proof (wpg_ok _ _ _ _ _ (generate_tuned anything I I buffer bufferLen f s T Hb Hm) E) as (l & D). cbv beta iota in D.
  destruct D as [D1 D2 D3 D4 D5 D6 D7 _ D9 _]. fold (block_size f s) in D3. pose proof (wanted_range anything bufferLen f s T ltac:(lia)) as [W1 W2]. fold (block_size f s) in W2.
  assert (LC : len (concat l) <= len buffer) by nia.
  assert (ND : n / block_size f s = len l) by (rewrite D3; apply Z.div_mul; lia).
  assert (TC : 0 < m_currentDuration s -> milliseconds_to_blocks (m_currentDuration s) s = blocks_in (m_currentDuration s) (m_currentSampleRate s)).
  { intros H. apply blocks_in_count; [exact H|lia|exact C]. }
  unfold api_blocks_played. rewrite ND. split; [nia|]. split; [exists (len l); exact D3|]. split; [rewrite D5; apply len_splice; lia|].
  split; [intros i Hi; rewrite D5; apply at_splice_out; lia|]. split; [exact D6|]. split.
  - intros H. rewrite <- (TC H). pose proof (tu_total _ _ T H). unfold wanted in D7. cbv zeta in D7. destruct (0 <? m_currentDuration s) eqn:Q; lia.
  - intros H. destruct (Z_lt_ge_dec (len l) (wanted bufferLen f s)) as [Q|Q]; [left; exact (D9 Q)|]. right.
    unfold wanted in D7, Q. cbv zeta in D7, Q. fold (block_size f s) in D7, Q. destruct (0 <? m_currentDuration s) eqn:K; [|lia]. split; [lia|]. rewrite <- TC by lia. lia.
Qed.

Lemma generate_total s k s' : listening 59 262143 s -> generates s k s' ->
  0 <= k /\ api_blocks_played s' = api_blocks_played s + k /\ (0 < m_currentDuration s -> api_blocks_played s + k <= blocks_in (m_currentDuration s) (m_currentSampleRate s)).
Proof.
  intros L G. cut (0 <= k /\ listening 59 262143 s' /\ quiet_settings s' = quiet_settings s /\ api_blocks_played s' = api_blocks_played s + k /\
    (0 < m_currentDuration s -> api_blocks_played s + k <= blocks_in (m_currentDuration s) (m_currentSampleRate s))); [tauto|].
  induction G as [s|s k s1 buffer bufferLen f n buffer' s' G IH Hb Hm E].
  - split; [lia|]. split; [exact L|]. split; [reflexivity|]. split; [lia|]. intros H. destruct (any_tuned s L) as (T & C & R). rewrite Z.add_0_r.
    rewrite <- blocks_in_count by (assumption || lia). exact (tu_total _ _ T H).
  - destruct (IH L) as (K & L1 & Q & P & TT). destruct (any_tuned s1 L1) as (T1 & C1 & R1).
    destruct (generate_counts s1 buffer bufferLen f n buffer' s' L1 Hb Hm E) as (N1 & _ & _ & _ & P2 & B2 & _).
    pose proof (wpg_ok _ _ _ _ _ (generate_tuned anything I I buffer bufferLen f s1 T1 Hb Hm) E) as (l & D). cbv beta iota in D.
    pose proof (de_set _ _ _ _ _ _ _ _ _ D) as Q2. rewrite Q in Q2. unfold quiet_settings in Q, Q2.
    assert (Q3 : block_size f s1 = block_size f s) by (unfold block_size; f_equal; f_equal; congruence). rewrite Q3 in P2.
    pose proof (block_size_pos anything f s1 T1) as BSZ. rewrite Q3 in *. assert (NN : 0 <= n / block_size f s) by (apply Z.div_pos; lia).
    split; [lia|]. split; [exact (listen_generate _ _ _ _ _ _ _ _ _ L1 Hb Hm E)|]. split; [exact Q2|]. split; [lia|].
    intros H. assert (D1 : m_currentDuration s1 = m_currentDuration s) by congruence. assert (D2 : m_currentSampleRate s1 = m_currentSampleRate s) by congruence.
    rewrite D1, D2 in B2. specialize (B2 H). lia.
Qed.

Lemma generate_ends s buffer bufferLen f : listening 59 262143 s -> 0 <= bufferLen <= len buffer -> bufferLen <= int_max ->
  api_generate buffer bufferLen f s <> OutOfFuel.
Proof.
  intros L Hb Hm E. destruct (any_tuned s L) as (T & _). pose proof (generate_tuned anything I I buffer bufferLen f s T Hb Hm) as W. rewrite E in W. exact W.
Qed.
Lemma play_ends s rate song duration : listening 59 262143 s -> 59 <= rate <= 262143 -> countable duration rate ->
  api_play_song song duration (api_set_sample_rate rate s) <> OutOfFuel.
Proof.
  intros L R C E. destruct (any_tuned s L) as (T & _).
  pose proof (play_song_started anything I I song duration (api_set_sample_rate rate s)) as W. rewrite E in W. apply W.
  - split; [exact (ok_mem _ (mo_cpu _ _ _ (pl_machine _ _ _ (tu_playing _ _ T))))|exact (tu_info _ _ T)].
  - apply rate_any. exact R.
Qed.
Lemma seek_ends s block : listening 59 262143 s -> 0 <= block <= int_max ->
  (0 < m_currentDuration s -> block <= blocks_in (m_currentDuration s) (m_currentSampleRate s)) -> api_seek_sample block s <> OutOfFuel.
Proof.
  intros L Hb Hd E. destruct (any_tuned s L) as (T & C & R). pose proof (seek_tuned anything I I block s T Hb) as W. rewrite E in W. apply W.
  intros D. rewrite blocks_in_count by (assumption || lia). now apply Hd.
Qed.

(* ---- the parts of one buffer ---- *)
Lemma generate_parts s f n m buf1 buf2 buf out s' : listening 59 262143 s -> m_silenceCycles s <= 0 -> 0 <= n -> 0 <= m ->
  (n + m) * block_size f s <= int_max -> len buf1 = n * block_size f s -> len buf2 = m * block_size f s -> len buf = (n + m) * block_size f s ->
  delivers buf ((n + m) * block_size f s) f s out s' <->
  exists out1 s1 out2, delivers buf1 (n * block_size f s) f s out1 s1 /\ delivers buf2 (m * block_size f s) f s1 out2 s' /\ out = out1 ++ out2.
Proof. intros L. apply (generate_split anything I I). exact (proj1 (any_tuned s L)). Qed.

(* ---- stores ---- *)
Lemma only_ends {T} P (o : outcome T) : wpg overflow_or_read False o P -> ends_with [UbOverflow; UbRead] o.
Proof. destruct o as [x| |r|]; cbn; [trivial|trivial| |trivial]. intros [-> | ->]; auto. Qed.
Lemma generate_safe s buffer bufferLen f : listening 2578 69704 s -> 0 <= bufferLen <= len buffer -> bufferLen <= int_max ->
  ends_with [UbOverflow; UbRead] (api_generate buffer bufferLen f s).
Proof. intros L Hb Hm. eapply only_ends, (generate_tuned overflow_or_read (or_introl eq_refl) (or_intror eq_refl)); [exact (safe_tuned s L)|exact Hb|exact Hm]. Qed.
Lemma play_safe fuel name module s0 s1 song duration : object s0 -> bytes module -> 2578 <= m_currentSampleRate s0 <= 69704 ->
  asap_load fuel name module s0 = Ok s1 -> ends_with [UbOverflow; UbRead] (api_play_song song duration s1).
Proof.
  intros [O1 O2] Hb Hr EL. destruct (asap_load_ok fuel name module s0 s1 Hb O1 O2 EL) as (M & LD & F).
  assert (E1 : m_currentSampleRate s1 = m_currentSampleRate s0) by (unfold loaded_from in F; rewrite F; reflexivity).
  eapply only_ends, (play_song_started overflow_or_read (or_introl eq_refl) (or_intror eq_refl)); [split; assumption|]. apply rate_safe. rewrite E1. exact Hr.
Qed.
Lemma seek_safe s block : listening 2578 69704 s -> 0 <= block <= int_max ->
  (0 < m_currentDuration s -> block <= blocks_in (m_currentDuration s) (m_currentSampleRate s)) -> ends_with [UbOverflow; UbRead] (api_seek_sample block s).
Proof.
  intros L Hb Hd. pose proof (listening_tuned overflow_or_read (or_introl eq_refl) (or_intror eq_refl) 2578 69704 s) as (T & C & R); [intros; now apply rate_safe|exact L|].
  eapply only_ends, (seek_tuned overflow_or_read (or_introl eq_refl) (or_intror eq_refl)); [exact T|exact Hb|].
  intros D. rewrite blocks_in_count by (assumption || lia). now apply Hd.
Qed.

(* ---- positions ---- *)
Lemma seek_position block s s' : api_seek_sample block s = Ok (true, s') -> api_blocks_played s' = block.
Proof.
  unfold api_seek_sample, api_blocks_played. intros E. destruct (if block <? _ then _ else _) as [[b s1]| | |]; cbn [bind] in E; try discriminate E.
  destruct b; [|discriminate E]. destruct (loopZ _ _ _) as [s2| | |]; cbn [bind] in E; try discriminate E. injection E as <-. reflexivity.
Qed.
Lemma position_exact s : m_currentSampleRate s mod 100 = 0 -> 0 < m_currentSampleRate s -> 0 <= api_blocks_played s -> 10 * api_blocks_played s <= int_max ->
  api_get_position s = Ok (1000 * api_blocks_played s / m_currentSampleRate s).
Proof.
  unfold api_get_position, api_blocks_played. intros M R P B. unfold chk, is_int. replace ((int_min <=? _) && _) with true by (unfold int_min, int_max in *; lia). cbn [bind].
  set (r := m_currentSampleRate s) in *. assert (RE : r = 100 * (r / 100)) by (pose proof (Z.div_mod r 100); lia).
  rewrite !Z.quot_div_nonneg by lia. destruct (r / 100 =? 0) eqn:Q; [lia|]. f_equal.
  rewrite RE at 2. replace (1000 * m_blocksPlayed s) with (100 * (m_blocksPlayed s * 10)) by lia. rewrite Z.div_mul_cancel_l by lia. reflexivity.
Qed.
Lemma seek_get_position ms s s' : m_currentSampleRate s mod 100 = 0 -> 1000 <= m_currentSampleRate s -> 0 <= ms -> 10 * blocks_in ms (m_currentSampleRate s) <= int_max ->
  api_seek ms s = Ok (true, s') -> m_currentSampleRate s' = m_currentSampleRate s ->
  api_blocks_played s' = blocks_in ms (m_currentSampleRate s) /\ exists p, api_get_position s' = Ok p /\ ms - 1 <= p <= ms.
Proof.
  intros M R H B E RS. set (r := m_currentSampleRate s) in *. assert (BI : 0 <= blocks_in ms r) by (unfold blocks_in; apply Z.div_pos; nia).
  assert (BP : api_blocks_played s' = blocks_in ms r).
  { unfold api_seek in E. apply seek_position in E. rewrite E. unfold milliseconds_to_blocks. fold r. rewrite Z.quot_div_nonneg by nia. fold (blocks_in ms r).
    unfold wrap32, int_max in *. rewrite Z.mod_small by lia. lia. }
  split; [exact BP|]. exists (1000 * blocks_in ms r / r). split; [rewrite position_exact; rewrite ?RS, ?BP; [reflexivity|exact M|lia|exact BI|exact B]|].
  unfold blocks_in in *. pose proof (Z.div_mod (ms * r) 1000). pose proof (Z.mod_pos_bound (ms * r) 1000). set (q := ms * r / 1000) in *.
  split; [apply Z.div_le_lower_bound; nia|]. apply Z.div_le_upper_bound; nia.
Qed.
Lemma listening_seek_position ms s s' : listening 59 262143 s -> m_currentSampleRate s mod 100 = 0 -> 1000 <= m_currentSampleRate s -> 0 <= ms -> 10 * blocks_in ms (m_currentSampleRate s) <= int_max ->
  (0 < m_currentDuration s -> blocks_in ms (m_currentSampleRate s) <= blocks_in (m_currentDuration s) (m_currentSampleRate s)) ->
  api_seek ms s = Ok (true, s') ->
  api_blocks_played s' = blocks_in ms (m_currentSampleRate s) /\ exists p, api_get_position s' = Ok p /\ ms - 1 <= p <= ms.
Proof.
  intros L M R H B D E. apply (seek_get_position ms s s' M R H B E). destruct (any_tuned s L) as (T & C & R2).
  set (r := m_currentSampleRate s) in *. assert (BI : 0 <= blocks_in ms r) by (unfold blocks_in; apply Z.div_pos; nia).
  assert (EB : milliseconds_to_blocks ms s = blocks_in ms r).
  { unfold milliseconds_to_blocks. fold r. rewrite Z.quot_div_nonneg by nia. fold (blocks_in ms r). unfold wrap32, int_max in *. rewrite Z.mod_small by lia. lia. }
  unfold api_seek in E. rewrite EB in E. pose proof (seek_tuned anything I I (blocks_in ms r) s T ltac:(unfold int_max in *; lia)) as W. rewrite E in W. cbn [wpg] in W.
  destruct W as (_ & _ & Q); [|reflexivity|change (m_currentSampleRate s' = m_currentSampleRate s); unfold quiet_settings in Q; congruence].
  intros D2. rewrite blocks_in_count by (assumption || lia). fold r. exact (D D2).
Qed.
