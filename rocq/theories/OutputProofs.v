(* The WAV and RAW files that asapconv writes *)
From Verif Require Import Base BaseFacts Loop MemModel InfoModel InfoSpec PokeyModel WriterModel MachineModel PlayModel CpuSpec CpuProofs PokeyProofs MachineProofs FrameProofs
  WriterProofs StoreProofs PlaySpec SessionSpec PokeyFacts GenerateProofs PlayProofs SessionProofs SessionFacts WavSpec WavProofs OptionModel OutputModel OutputSpec.

Lemma block_sizes s f : listening 59 262143 s -> block_size f s = 1 \/ block_size f s = 2 \/ block_size f s = 4.
Proof. intros L. destruct (any_tuned s L) as (T & _). destruct (tu_info _ _ T) as [CH _]. unfold block_size, bytes_per_sample. destruct f, CH as [-> | ->]; lia. Qed.

Lemma generate_keeps s buffer n f k buffer' s' : listening 59 262143 s -> 0 <= n <= len buffer -> n <= int_max -> api_generate buffer n f s = Ok (k, buffer', s') ->
  listening 59 262143 s' /\ m_currentDuration s' = m_currentDuration s /\ m_currentSampleRate s' = m_currentSampleRate s /\ m_silenceCycles s' = m_silenceCycles s /\ m_info s' = m_info s.
Proof.
  intros L Hb Hm E. destruct (any_tuned s L) as (T & _ & _). split; [exact (listen_generate _ _ _ _ _ _ _ _ _ L Hb Hm E)|].
  pose proof (wpg_ok _ _ _ _ _ (generate_tuned anything I I buffer n f s T Hb Hm) E) as (l & Dl). cbv beta iota in Dl.
  pose proof (de_set _ _ _ _ _ _ _ _ _ Dl) as Q. unfold quiet_settings in Q. repeat split; congruence.
Qed.

Definition bytes_left (f : sample_format) (s : asap) : Z := (blocks_in (m_currentDuration s) (m_currentSampleRate s) - api_blocks_played s) * block_size f s.

Lemma chunk_step s f buffer n buffer' s1 : listening 59 262143 s -> 0 < m_currentDuration s -> m_silenceCycles s <= 0 -> len buffer = 8192 ->
  api_generate buffer 8192 f s = Ok (n, buffer', s1) ->
  listening 59 262143 s1 /\ 0 < m_currentDuration s1 /\ m_silenceCycles s1 <= 0 /\ len buffer' = 8192 /\ block_size f s1 = block_size f s /\
  0 <= n <= 8192 /\ bytes_left f s1 = bytes_left f s - n /\ 0 <= bytes_left f s1 /\ (n <> 8192 -> bytes_left f s1 = 0) /\
  delivers buffer 8192 f s (firstn (Z.to_nat n) buffer') s1 /\ len (firstn (Z.to_nat n) buffer') = n.
Proof.
  intros L D S LB E. pose proof (block_sizes s f L) as BS. assert (BS0 : block_size f s <> 0) by lia.
  destruct (generate_keeps s buffer 8192 f n buffer' s1 L ltac:(lia) ltac:(unfold int_max; lia) E) as (L1 & D1 & R1 & S1 & I1).
  destruct (generate_counts s buffer 8192 f n buffer' s1 L ltac:(lia) ltac:(unfold int_max; lia) E) as (N & [q ->] & LB' & _ & P & LE & LT).
  assert (B1 : block_size f s1 = block_size f s) by (unfold block_size; now rewrite I1).
  specialize (LE D). rewrite (Z.div_mul q (block_size f s) BS0) in P, LT.
  assert (F : len (firstn (Z.to_nat (q * block_size f s)) buffer') = q * block_size f s) by (unfold len in *; rewrite firstn_length; lia).
  unfold bytes_left. rewrite D1, R1, S1, B1, P. set (total := blocks_in _ _) in *. set (bs := block_size f s) in *.
  split; [exact L1|]. split; [exact D|]. split; [exact S|]. split; [lia|]. split; [reflexivity|]. split; [lia|]. split; [ring|]. split; [apply Z.mul_nonneg_nonneg; lia|]. split; [|split; [|exact F]].
  - intros NE. destruct LT as [[X _]|[_ X]]; [|lia|rewrite <- P, X; lia]. destruct BS as [-> | [-> | ->]]; [change (8192 / 1) with 8192|change (8192 / 2) with 4096|change (8192 / 4) with 2048]; lia.
  - exists (q * bs), buffer'. split; [exact E|]. split; [reflexivity|exact F].
Qed.

(* the loop delivers all that is left, as one call with a buffer that is big enough *)
Lemma samples_all fuel : forall buffer f s out s', listening 59 262143 s -> 0 < m_currentDuration s -> m_silenceCycles s <= 0 -> len buffer = 8192 ->
  bytes_left f s + 8192 <= int_max -> conv_samples fuel buffer f s = Ok (out, s') ->
  len out = bytes_left f s /\ forall big, len big = (bytes_left f s / 8192 + 1) * 8192 -> delivers big (len big) f s out s'.
Proof.
  induction fuel as [|fuel IH]; intros buffer f s out s' L D S LB M H; [discriminate|]. cbn [conv_samples] in H.
  destruct (api_generate buffer 8192 f s) as [[[n buffer'] s1]| | |] eqn:E; try discriminate. cbn [bind] in H.
  destruct (chunk_step s f buffer n buffer' s1 L D S LB E) as (L1 & D1 & S1 & LB1 & B1 & N & LEFT & POS & LAST & DEL & LN).
  set (first := firstn (Z.to_nat n) buffer') in *. clearbody first.
  pose proof (block_sizes s f L) as BS. set (bs := block_size f s) in *.
  assert (Q : exists c, 8192 = c * bs /\ 0 <= c) by (destruct BS as [BE|[BE|BE]]; rewrite BE; [exists 8192|exists 4096|exists 2048]; split; (reflexivity || discriminate)). destruct Q as (c & Q & C0).
  destruct (n =? 8192) eqn:EN.
  - apply Z.eqb_eq in EN. subst n. destruct (conv_samples fuel buffer' f s1) as [[rest s2]| | |] eqn:E2; try discriminate. cbn [bind] in H. injection H as <- <-.
    destruct (IH buffer' f s1 rest s2 L1 D1 S1 LB1 ltac:(lia) E2) as (LR & DR). split; [rewrite len_app, LN, LR; lia|].
    set (k := bytes_left f s1 / 8192 + 1) in *. assert (K0 : 1 <= k) by (unfold k; pose proof (Z.div_pos (bytes_left f s1) 8192); lia).
    assert (KK : bytes_left f s / 8192 = k) by (unfold k; replace (bytes_left f s) with (bytes_left f s1 + 1 * 8192) by lia; rewrite Z.div_add by lia; lia).
    assert (KM : k * 8192 <= bytes_left f s1 + 8192) by (unfold k; pose proof (Z.mul_div_le (bytes_left f s1) 8192 ltac:(lia)); lia).
    intros big LBIG. rewrite KK in LBIG.
    assert (X : len big = (c + k * c) * block_size f s) by (fold bs; rewrite LBIG; nia). rewrite X.
    apply (generate_parts s f c (k * c) buffer (repeat 0 (Z.to_nat (k * 8192))) big _ _ L S C0 ltac:(nia)).
    + rewrite <- X, LBIG. lia.
    + fold bs. lia.
    + fold bs. unfold len. rewrite repeat_length. rewrite Z2Nat.id by lia. nia.
    + exact X.
    + exists first, s1, rest. fold bs. rewrite <- Q. split; [exact DEL|]. split; [|reflexivity].
      replace (k * c * bs) with (len (repeat 0 (Z.to_nat (k * 8192)))); [|unfold len; rewrite repeat_length, Z2Nat.id by lia; nia]. apply DR. unfold len. rewrite repeat_length. lia.
  - apply Z.eqb_neq in EN. injection H as <- <-. specialize (LAST EN). split; [lia|]. replace (bytes_left f s / 8192) with 0 by (symmetry; apply Z.div_small; lia). intros big LBIG.
    assert (PARTS : forall b, len b = 8192 -> delivers b ((c + 0) * block_size f s) f s first s1 <->
      exists out1 s2 out2, delivers big (c * block_size f s) f s out1 s2 /\ delivers [] (0 * block_size f s) f s2 out2 s1 /\ first = out1 ++ out2).
    { intros b Lb. apply (generate_parts s f c 0 big [] b _ _ L S C0); fold bs; try reflexivity; unfold int_max; lia. }
    replace (len big) with ((c + 0) * block_size f s) by (fold bs; lia). apply PARTS; [lia|]. apply (PARTS buffer LB). replace ((c + 0) * block_size f s) with 8192 by (fold bs; lia). exact DEL.
Qed.

(* and it ends *)
Lemma samples_end fuel : forall buffer f s, listening 59 262143 s -> 0 < m_currentDuration s -> m_silenceCycles s <= 0 -> len buffer = 8192 ->
  bytes_left f s < Z.of_nat fuel * 8192 -> conv_samples fuel buffer f s <> OutOfFuel.
Proof.
  induction fuel as [|fuel IH]; intros buffer f s L D S LB M H; cbn [conv_samples] in H.
  - destruct (any_tuned s L) as (T & C & R). pose proof (block_sizes s f L) as BS. pose proof (tu_total _ _ T D) as TT. rewrite blocks_in_count in TT by (assumption || lia).
    unfold bytes_left, api_blocks_played in M. assert (0 <= (blocks_in (m_currentDuration s) (m_currentSampleRate s) - m_blocksPlayed s) * block_size f s) by (apply Z.mul_nonneg_nonneg; lia). lia.
  - destruct (api_generate buffer 8192 f s) as [[[n buffer'] s1]| | |] eqn:E; cbn [bind] in H; try discriminate H.
    + destruct (chunk_step s f buffer n buffer' s1 L D S LB E) as (L1 & D1 & S1 & LB1 & B1 & N & LEFT & POS & LAST & DEL & LN).
      destruct (n =? 8192) eqn:EN; [|discriminate H]. specialize (IH buffer' f s1 L1 D1 S1 LB1 ltac:(lia)). destruct (conv_samples fuel buffer' f s1) as [[rest s2]| | |]; try discriminate H. now apply IH.
    + exact (generate_ends s buffer 8192 f L ltac:(lia) ltac:(unfold int_max; lia) E).
Qed.

(* starting a song *)
Lemma song_starts s song d s1 : ready s -> countable d (m_currentSampleRate s) -> api_play_song song d s = Ok (true, s1) ->
  listening 59 262143 s1 /\ m_info s1 = m_info s /\ m_currentDuration s1 = d /\ m_currentSampleRate s1 = m_currentSampleRate s /\ m_silenceCycles s1 = m_silenceCycles s /\ m_blocksPlayed s1 = 0.
Proof.
  intros R C E.
  assert (X : listening 59 262143 s1 /\ playable s /\ 59 <= m_currentSampleRate s <= 262143).
  { destruct R as [(fuel & name & module & s0 & [O1 O2] & B & R & EL)|L].
    - destruct (asap_load_ok fuel name module s0 s B O1 O2 EL) as (M & LD & F).
      assert (E1 : m_currentSampleRate s = m_currentSampleRate s0) by (unfold loaded_from in F; rewrite F; reflexivity). rewrite E1 in *.
      split; [exact (listen_load 59 262143 fuel name module s0 s song d s1 (conj O1 O2) B R C EL E)|]. split; [split; assumption|exact R].
    - destruct (any_tuned s L) as (T & _ & R). split; [|split; [|exact R]].
      + apply (listen_song 59 262143 (m_currentSampleRate s) song d s s1 L R C). replace (api_set_sample_rate (m_currentSampleRate s) s) with s by (destruct s; reflexivity). exact E.
      + split; [exact (ok_mem _ (mo_cpu _ _ _ (pl_machine _ _ _ (tu_playing _ _ T))))|exact (tu_info _ _ T)]. }
  destruct X as (L1 & PL & R1). split; [exact L1|].
  pose proof (wpg_ok _ _ _ _ _ (play_song_started anything I I song d s PL (rate_any (i_ntsc (m_info s)) _ R1)) E) as (W & _). destruct (W eq_refl) as [_ I1 _ D1 P1 R2 S1 _ _]. repeat split; assumption.
Qed.

Lemma duration_ok o song inf d : conv_duration o song inf = Ok d -> length_of (o_duration o) inf song d.
Proof.
  unfold conv_duration, api_get_duration, get. destruct (o_duration o <? 0) eqn:N; [|intros [= <-]; apply length_requested; lia].
  destruct (song <? 0); [discriminate|]. destruct (nth_error (i_durations inf) (Z.to_nat song)) as [v|] eqn:E; [|discriminate]. cbn [bind]. intros [= <-].
  destruct (v <? 0) eqn:V; [apply length_unknown with v|apply length_known]; (assumption || lia).
Qed.

Lemma conv_file_ok fuel buffer o header song s file s' d year hdr :
  ready s -> m_silenceCycles s <= 0 -> len buffer = 8192 -> length_of (o_duration o) (m_info s) song d -> 0 < d -> countable d (m_currentSampleRate s) ->
  bytes (i_title (m_info s)) -> bytes (i_author (m_info s)) -> year_text (i_date (m_info s)) year ->
  hdr = wave_header (i_channels (m_info s)) (m_currentSampleRate s) (bytes_per_sample (conv_format o))
          (if o_tag o then list_chunk (i_title (m_info s)) (i_author (m_info s)) year else []) (blocks_in d (m_currentSampleRate s) * block_size (conv_format o) s) ->
  len hdr <= 8192 -> blocks_in d (m_currentSampleRate s) * block_size (conv_format o) s + 8192 <= int_max ->
  conv_file fuel buffer o header song s = Ok (file, s') ->
  exists s1 data, api_play_song song d s = Ok (true, s1) /\ file = (if header then hdr else []) ++ data /\ len data = blocks_in d (m_currentSampleRate s) * block_size (conv_format o) s /\
    forall big, len big = (len data / 8192 + 1) * 8192 -> delivers big (len big) (conv_format o) (api_mute (o_mute o) s1) data s'.
Proof.
  intros R S LB LEN D C BT BA Y EH HL M H. unfold conv_file, conv_play in H.
  destruct (conv_duration o song (m_info s)) as [d'| | |] eqn:E1; try discriminate. cbn [bind] in H. apply duration_ok in E1.
  assert (d' = d). { destruct E1 as [A1|v1 A1 B1 C1|v1 A1 B1 C1], LEN as [A2|v2 A2 B2 C2|v2 A2 B2 C2]; try reflexivity; try (exfalso; lia); assert (v1 = v2) by congruence; lia. } subst d'. clear E1.
  destruct (api_play_song song d s) as [[b s1]| | |] eqn:E2; try discriminate. cbn [bind] in H. destruct b; [|discriminate]. cbn [bind] in H.
  destruct (song_starts s song d s1 R C E2) as (L1 & I1 & D1 & R1 & S1 & P1).
  set (t := api_mute (o_mute o) s1) in *. assert (LT : listening 59 262143 t) by (apply listen_mute; exact L1).
  assert (It : m_info t = m_info s) by exact I1. assert (Dt : m_currentDuration t = d) by exact D1. assert (Rt : m_currentSampleRate t = m_currentSampleRate s) by exact R1.
  assert (St : m_silenceCycles t <= 0) by (change (m_silenceCycles t) with (m_silenceCycles s1); lia). assert (Pt : api_blocks_played t = 0) by exact P1.
  assert (LEFT : bytes_left (conv_format o) t = blocks_in d (m_currentSampleRate s) * block_size (conv_format o) s) by (unfold bytes_left, block_size; rewrite It, Dt, Rt, Pt, Z.sub_0_r; reflexivity).
  assert (HD : exists buffer', len buffer' = 8192 /\ ('(data, s) <- conv_samples fuel buffer' (conv_format o) t ;; Ok ((if header then hdr else []) ++ data, s)) = Ok (file, s')).
  { destruct header; [|exists buffer; split; [exact LB|exact H]].
    rewrite (wav_header_describes t (conv_format o) (o_tag o) buffer year hdr) in H; try assumption; try (rewrite ?It, ?Dt, ?Rt; assumption); try lia.
    - cbn [bind] in H. exists (hdr ++ skipn (Z.to_nat (len hdr)) buffer). split; [unfold len in *; rewrite app_length, skipn_length; lia|].
      replace (firstn (Z.to_nat (len hdr)) (hdr ++ skipn (Z.to_nat (len hdr)) buffer)) with hdr in H; [exact H|]. unfold len. rewrite Nat2Z.id, firstn_app, firstn_all, Nat.sub_diag. cbn [firstn]. now rewrite app_nil_r.
    - fold (bytes_left (conv_format o) t). rewrite LEFT, It, Rt. exact EH.
    - fold (bytes_left (conv_format o) t). lia. }
  destruct HD as (buffer' & LB' & HD). destruct (conv_samples fuel buffer' (conv_format o) t) as [[data s2]| | |] eqn:E3; try discriminate. cbn [bind] in HD. injection HD as <- <-.
  destruct (samples_all fuel buffer' (conv_format o) t data s2 LT ltac:(lia) St LB' ltac:(lia) E3) as (LD & DEL).
  exists s1, data. split; [reflexivity|]. split; [reflexivity|]. split; [lia|]. intros big BIG. apply DEL. now rewrite <- LD.
Qed.
