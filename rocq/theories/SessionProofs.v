(* Sequences of calls: generating, seeking, muting *)
From Verif Require Import Base BaseFacts Loop MemModel InfoModel PokeyModel MachineModel PlayModel CpuProofs PokeyProofs MachineProofs FrameProofs WriterModel
  WriterProofs StoreProofs PlaySpec SessionSpec PokeyFacts GenerateProofs PlayProofs.

(* ---- sample rates ---- *)
Lemma rate_any ntsc rate : 59 <= rate <= 262143 -> rate_ok anything ntsc rate.
Proof.
  intros H. constructor; [lia| |left; exact I]. intros o Ho. cbv zeta. unfold trail, buffer_size, cycles_of, step_of. rewrite Z.quot_div_nonneg by lia.
  destruct ntsc; (split; [|split; [|left; exact I]]); lia.
Qed.
(* memory safety: only the program counter of the emulated program and the arithmetic of the sound are not bounded *)
Definition overflow_or_read (r : ub_reason) : Prop := r = UbOverflow \/ r = UbRead.
Lemma rate_safe ntsc rate : 2578 <= rate <= 69704 -> rate_ok overflow_or_read ntsc rate.
Proof.
  intros H. constructor; [lia| |right].
  - intros o Ho. cbv zeta. unfold trail, buffer_size, cycles_of, step_of. rewrite Z.quot_div_nonneg by lia. destruct ntsc; (split; [|split; [|right]]); lia.
  - unfold buffer_size, cycles_of, step_of. rewrite Z.quot_div_nonneg by lia. destruct ntsc; lia.
Qed.

Section Session.
Variable B : ub_reason -> Prop.
Hypothesis HO : B UbOverflow.
Hypothesis HR : B UbRead.

Record tuned (s : asap) : Prop := mkTuned {
  tu_playing : playing B (buffer_size (m_currentSampleRate s)) s;
  tu_rate : rate_ok B (i_ntsc (m_info s)) (m_currentSampleRate s);
  tu_info : loadable (m_info s);
  tu_mask : pp_extraPokeyMask (m_pokeys s) = if 1 <? i_channels (m_info s) then 16 else 0;
  tu_total : 0 < m_currentDuration s -> m_blocksPlayed s <= milliseconds_to_blocks (m_currentDuration s) s
}.

Lemma tuned_matched f s : tuned s -> matched f s.
Proof.
  intros T. pose proof (tu_mask _ T) as M. destruct (tu_info _ T) as [C _]. unfold matched, block_shift, block_bytes, bytes_per_sample. rewrite M.
  destruct C as [-> | ->], f; cbn; lia.
Qed.
Lemma tuned_bytes f s : tuned s -> block_bytes f (m_pokeys s) = i_channels (m_info s) * bytes_per_sample f.
Proof.
  intros T. pose proof (tu_mask _ T) as M. destruct (tu_info _ T) as [C _]. unfold block_bytes. rewrite M. destruct C as [-> | ->]; reflexivity.
Qed.

Lemma play_song_tuned song duration s : playable s -> rate_ok B (i_ntsc (m_info s)) (m_currentSampleRate s) ->
  (0 < duration -> 0 <= milliseconds_to_blocks duration s) ->
  wpg B False (api_play_song song duration s) (fun r => let '(b, s') := r in b = true ->
    tuned s' /\ started B (m_currentSampleRate s) song duration s s').
Proof.
  intros P R D. eapply wpg_mono; [apply (play_song_started B HO HR song duration s P R)|]. intros [b s'] [H _] Hb. specialize (H Hb). split; [|exact H].
  pose proof (started_playing B _ _ _ _ _ R H) as PL. destruct P as [_ L]. destruct H as [_ I1 _ D1 P1 R1 _ _ F].
  constructor; rewrite ?R1, ?I1; try assumption.
  - unfold fixed in F. congruence.
  - rewrite D1, P1. unfold milliseconds_to_blocks in *. rewrite R1. exact D.
Qed.

(* ---- ASAP_Generate ---- *)
Definition wanted (bufLen : Z) (f : sample_format) (s : asap) : Z :=
  let n := bufLen / (i_channels (m_info s) * bytes_per_sample f) in
  if 0 <? m_currentDuration s then Z.min n (milliseconds_to_blocks (m_currentDuration s) s - m_blocksPlayed s) else n.

Lemma limit_wanted bufLen f s n : tuned s -> generate_limit bufLen f s = Ok n -> n = wanted bufLen f s.
Proof.
  intros T. pose proof (tuned_matched f s T) as [M1 M2]. rewrite (tuned_bytes f s T) in M2.
  unfold generate_limit, wanted. cbv zeta. rewrite Z.shiftr_div_pow2, M2 by exact M1.
  destruct (0 <? m_currentDuration s); [|intros E; injection E as <-; reflexivity].
  destruct (chk _) as [rest| | |] eqn:C; cbn [bind]; try discriminate. apply chk_inv in C. destruct C as [-> _]. intros E. injection E as <-.
  destruct (_ <? _) eqn:Q; lia.
Qed.
Lemma wanted_range bufLen f s : tuned s -> 0 <= bufLen <= int_max -> 0 <= wanted bufLen f s <= int_max /\
  wanted bufLen f s * (i_channels (m_info s) * bytes_per_sample f) <= bufLen.
Proof.
  intros T H. destruct (tu_info _ T) as [C _]. pose proof (tu_total _ T) as TT. unfold wanted. cbv zeta. set (c := i_channels (m_info s) * bytes_per_sample f).
  assert (HC : 1 <= c <= 4) by (unfold c, bytes_per_sample; destruct C as [-> | ->], f; lia).
  assert (HN : 0 <= bufLen / c <= int_max) by (split; [apply Z.div_pos; lia|apply Z.div_le_upper_bound; nia]).
  pose proof (Z.mul_div_le bufLen c ltac:(lia)). destruct (0 <? m_currentDuration s) eqn:D; [|nia]. specialize (TT ltac:(lia)).
  split; [lia|]. nia.
Qed.

Lemma quiet_tuned s s' : tuned s -> playing B (buffer_size (m_currentSampleRate s)) s' -> quiet_settings s' = quiet_settings s ->
  (0 < m_currentDuration s -> m_blocksPlayed s' <= milliseconds_to_blocks (m_currentDuration s) s) -> tuned s'.
Proof.
  intros [T1 T2 T3 T4 T5] P Q H. unfold quiet_settings in Q.
  assert (Q1 : m_info s' = m_info s) by congruence. assert (Q2 : m_currentSampleRate s' = m_currentSampleRate s) by congruence. assert (Q3 : m_currentDuration s' = m_currentDuration s) by congruence.
  constructor; rewrite ?Q1, ?Q2; try assumption; try congruence. rewrite Q3. unfold milliseconds_to_blocks in *. rewrite Q2. exact H.
Qed.


(* what one call does *)
Record delivered (f : sample_format) (s : asap) (buf : list Z) (n : Z) (l : list (list Z)) (r : Z) (buf' : list Z) (s' : asap) : Prop := mkDelivered {
  de_tuned : tuned s';
  de_set : quiet_settings s' = quiet_settings s;
  de_count : r = len l * (i_channels (m_info s) * bytes_per_sample f);
  de_bytes : len (concat l) = r;
  de_buf : buf' = splice buf 0 (concat l);
  de_played : m_blocksPlayed s' = m_blocksPlayed s + len l;
  de_range : 0 <= len l <= n;
  de_int : m_blocksPlayed s' <= int_max \/ s' = s;
  de_all : len l < n -> 0 < m_silenceCycles s /\ m_silenceCyclesCounter s' <= 0;
  de_plays : m_silenceCycles s <= 0 -> exists k, plays f k s l s'
}.
Lemma generate_tuned buf bufLen f s : tuned s -> 0 <= bufLen <= len buf -> bufLen <= int_max ->
  wpg B False (api_generate buf bufLen f s) (fun r => let '(n, buf', s') := r in exists l, delivered f s buf (wanted bufLen f s) l n buf' s').
Proof.
  intros T Hb Hm. pose proof (wanted_range bufLen f s T ltac:(lia)) as [W1 W2]. unfold api_generate, generate_at.
  destruct ((0 <? m_silenceCycles s) && (m_silenceCyclesCounter s <=? 0)) eqn:SC.
  - cbn [wpg]. exists []. constructor; change (len (@nil (list Z))) with 0; try reflexivity; try assumption; try lia.
    right. reflexivity.
  - cbv zeta. apply wpg_bind. destruct (generate_limit bufLen f s) as [n| |r|] eqn:L; cbn [wpg].
    2-4: unfold generate_limit in L; cbv zeta in L; destruct (0 <? m_currentDuration s); [|discriminate L]; unfold chk in L; destruct (is_int _); cbn [bind] in L; try discriminate L.
    2: injection L as <-; exact HO.
    pose proof (limit_wanted _ _ _ _ T L) as ->. set (n := wanted bufLen f s) in *. pose proof (tuned_matched f s T) as M. pose proof (tuned_bytes f s T) as BB.
    apply wpg_bind. eapply wpg_mono; [apply (generate_loop_playing B HO HR (buffer_size (m_currentSampleRate s)) f s buf 0 n (tu_playing _ T) M); rewrite ?BB; lia|].
    intros [[block buf'] s'] (l & [G1 G2 G3 G4 G5 G6] & R1 & R2 & R3 & R4). cbn [wpg]. exists l. destruct M as [M1 M2]. rewrite Z.shiftl_mul_pow2, <- M2, BB by exact M1.
    rewrite BB in G5. constructor; try assumption; try lia.
    + apply (quiet_tuned s s' T G1 G2). intros D. pose proof (tu_total _ T D). unfold n, wanted in R1. cbv zeta in R1. destruct (0 <? m_currentDuration s) eqn:DD; lia.
    + intros S. exact (proj2 (R2 S)).
Qed.

(* ---- the other calls ---- *)
Lemma mute_tuned mask s : tuned s -> tuned (api_mute mask s).
Proof.
  intros T. apply (quiet_tuned s); [exact T| |reflexivity|exact (tu_total _ T)]. destruct (tu_playing _ T) as [P1 P2 P3 P4 P5 P6].
  constructor; try assumption. apply (mute_machine B HR); exact P1.
Qed.
Lemma detect_tuned seconds s s' : tuned s -> api_detect_silence seconds s = Ok s' -> tuned s'.
Proof.
  intros [T1 T2 T3 T4 T5] E. unfold api_detect_silence in E. destruct (chk _) as [v| | |]; cbn [bind] in E; try discriminate E. injection E as <-.
  constructor; try assumption. destruct T1 as [[[] M2 M3 M4] P2 P3 P4 P5 P6]. constructor; try assumption. constructor; try assumption. constructor; assumption.
Qed.

Lemma ready_playing s N i played : playing B N s -> 0 <= i <= pp_readySamplesEnd (m_pokeys s) -> 0 <= played ->
  playing B N (set_m_blocksPlayed played (set_m_pokeys (set_pp_readySamplesStart i (m_pokeys s)) s)).
Proof.
  intros [[[] M2 M3 M4] P2 P3 P4 P5 P6] Hi Hp. constructor; try assumption. constructor; try assumption.
  - constructor; assumption.
  - apply live_pair with (m_pokeys s); [reflexivity|reflexivity|exact M3].
  - apply live_pair with (m_pokeys s); [reflexivity|reflexivity|exact M4].
Qed.
Lemma played_playing s N played : playing B N s -> 0 <= played -> playing B N (set_m_blocksPlayed played s).
Proof. intros [[[] M2 M3 M4] P2 P3 P4 P5 P6] Hp. constructor; try assumption. constructor; try assumption. constructor; assumption. Qed.

Definition seek_settings (s : asap) := (quiet_settings s, m_silenceCyclesCounter s).
Lemma seek_loop_playing N s0 block : playing B N s0 -> m_blocksPlayed s0 <= block <= int_max ->
  wpg B False (loopZ seek_fuel (seek_step block) s0) (fun s => playing B N s /\ seek_settings s = seek_settings s0 /\
    m_blocksPlayed s <= block <= m_blocksPlayed s + pp_readySamplesEnd (m_pokeys s)).
Proof.
  intros P0 H0. apply (loopZ_wpg B False _ (fun s => playing B N s /\ seek_settings s = seek_settings s0 /\ m_blocksPlayed s <= block)
    (fun s => 2 * (block - m_blocksPlayed s) + (if pp_readySamplesEnd (m_pokeys s) <=? 0 then 1 else 0))).
  - intros s (P & _ & H). destruct (_ <=? 0); lia.
  - intros s (P & Q & H). unfold seek_step. pose proof (pl_played _ _ _ P) as PP. pose proof (pl_ready _ _ _ P) as PR.
    apply wpg_bind, wpg_chk; [|right; exact HO]. intros _. set (e := m_blocksPlayed s + pp_readySamplesEnd (m_pokeys s)).
    destruct (e <? block) eqn:E.
    + apply wpg_bind. eapply wpg_mono; [apply (frame_playing B HO HR N); apply played_playing; [exact P|unfold e; lia]|].
      intros [c s'] (P' & _ & S & R1 & R2 & K). cbn [wpg continue_].
      assert (PE : m_blocksPlayed s' = e) by (unfold settings in S; cbn in S; congruence).
      split; [|rewrite PE; unfold e; destruct (pp_readySamplesEnd (m_pokeys s') <=? 0) eqn:?; destruct (pp_readySamplesEnd (m_pokeys s) <=? 0) eqn:?; lia].
      split; [exact P'|]. split; [|lia]. rewrite <- Q. unfold seek_settings, quiet_settings. unfold settings in S. cbn in S, K. congruence.
    + cbn [wpg leave]. split; [exact P|]. split; [exact Q|]. unfold e in E. lia.
  - split; [exact P0|]. split; [reflexivity|lia].
  - unfold seek_fuel, int_max in *. pose proof (pl_played _ _ _ P0). destruct (_ <=? 0); lia.
Qed.

(* a seek succeeds or the initialisation of the song does not end *)
Lemma seek_tuned block s : tuned s -> 0 <= block <= int_max -> (0 < m_currentDuration s -> block <= milliseconds_to_blocks (m_currentDuration s) s) ->
  wpg B False (api_seek_sample block s) (fun r => let '(b, s') := r in b = true -> tuned s' /\ m_blocksPlayed s' = block /\ quiet_settings s' = quiet_settings s).
Proof.
  intros T Hb Hd. unfold api_seek_sample. apply wpg_bind.
  assert (K : forall s1, tuned s1 -> quiet_settings s1 = quiet_settings s -> m_blocksPlayed s1 <= block ->
    wpg B False (s2 <- loopZ seek_fuel (seek_step block) s1 ;; let s3 := set_m_pokeys (set_pp_readySamplesStart (block - m_blocksPlayed s2) (m_pokeys s2)) s2 in Ok (true, set_m_blocksPlayed block s3))
     (fun r => let '(b, s') := r in b = true -> tuned s' /\ m_blocksPlayed s' = block /\ quiet_settings s' = quiet_settings s)).
  { intros s1 T1 Q1 H1. apply wpg_bind. eapply wpg_mono; [apply (seek_loop_playing (buffer_size (m_currentSampleRate s1)) s1 block (tu_playing _ T1)); lia|].
    intros s2 (P2 & Q2 & H2). cbv zeta. cbn [wpg]. intros _. assert (Q3 : quiet_settings s2 = quiet_settings s1) by (unfold seek_settings in Q2; congruence).
    split; [|split; [reflexivity|]].
    - apply (quiet_tuned s1); [exact T1| |exact Q3|].
      + apply ready_playing; [exact P2|lia|lia].
      + cbn [m_blocksPlayed set_m_blocksPlayed]. unfold quiet_settings in Q1. assert (E1 : m_currentDuration s1 = m_currentDuration s) by congruence.
        assert (E2 : m_currentSampleRate s1 = m_currentSampleRate s) by congruence. unfold milliseconds_to_blocks in *. now rewrite E1, E2.
    - rewrite <- Q1, <- Q3. reflexivity. }
  destruct (block <? m_blocksPlayed s) eqn:E.
  - pose proof (tu_playing _ T) as P. eapply wpg_mono; [apply (play_song_tuned (m_currentSong s) (m_currentDuration s) s)|].
    + split; [exact (ok_mem _ (mo_cpu _ _ _ (pl_machine _ _ _ P)))|exact (tu_info _ T)].
    + exact (tu_rate _ T).
    + intros D. pose proof (tu_total _ T D). pose proof (pl_played _ _ _ P). lia.
    + intros [b s1] H. cbv beta iota. destruct b; [|cbn [wpg]; discriminate]. destruct (H eq_refl) as [T1 [M I1 S1 D1 P1 R1 S2 S3 F]]. apply K; [exact T1| |lia].
      pose proof (tu_mask _ T) as TM. unfold quiet_settings. unfold fixed in F. rewrite TM. congruence.
  - cbn [wpg]. apply K; [exact T|reflexivity|lia].
Qed.

(* ---- any sequence of calls ---- *)
Lemma blocks_in_count duration s : 0 < duration -> 0 <= m_currentSampleRate s -> countable duration (m_currentSampleRate s) ->
  milliseconds_to_blocks duration s = blocks_in duration (m_currentSampleRate s).
Proof.
  intros D R C. unfold countable, blocks_in, milliseconds_to_blocks in *. rewrite Z.quot_div_nonneg by nia.
  assert (0 <= duration * m_currentSampleRate s / 1000) by (apply Z.div_pos; nia). unfold wrap32, int_max in *. rewrite Z.mod_small by lia. lia.
Qed.
Lemma listening_tuned lo hi s : (forall ntsc rate, lo <= rate <= hi -> rate_ok B ntsc rate) -> listening lo hi s ->
  tuned s /\ countable (m_currentDuration s) (m_currentSampleRate s) /\ lo <= m_currentSampleRate s <= hi.
Proof.
  intros R H. induction H as [fuel name module s0 s1 song duration s [O1 O2] Hb Hr Hc EL EP|rate song duration s s' L [T [C K]] Hr Hc EP
    |buffer bufferLen f n buffer' s s' L [T [C K]] H1 H2 E|block s s' L [T [C K]] H1 H2 E|mask s L [T [C K]]|seconds s s' L [T [C K]] E].
  - destruct (asap_load_ok fuel name module s0 s1 Hb O1 O2 EL) as (M & LD & F).
    assert (E1 : m_currentSampleRate s1 = m_currentSampleRate s0) by (unfold loaded_from in F; rewrite F; reflexivity).
    assert (RK : rate_ok B (i_ntsc (m_info s1)) (m_currentSampleRate s1)) by (apply R; rewrite E1; exact Hr).
    assert (W : 0 < duration -> 0 <= milliseconds_to_blocks duration s1).
    { intros D. pose proof (ro_pos _ _ _ RK). rewrite blocks_in_count by (rewrite ?E1 in *; assumption || lia). unfold blocks_in. apply Z.div_pos; nia. }
    pose proof (wpg_ok _ _ _ _ _ (play_song_tuned song duration s1 (conj M LD) RK W) EP) as W2. cbv beta iota in W2. destruct (W2 eq_refl) as [T ST].
    destruct ST as [_ _ _ D1 _ R1 _ _ _]. split; [exact T|]. rewrite D1, R1, E1. now split.
  - set (s1 := api_set_sample_rate rate s) in *. assert (E1 : m_currentSampleRate s1 = rate) by reflexivity.
    assert (RK : rate_ok B (i_ntsc (m_info s1)) (m_currentSampleRate s1)) by (apply R; rewrite E1; exact Hr).
    assert (W : 0 < duration -> 0 <= milliseconds_to_blocks duration s1).
    { intros D. pose proof (ro_pos _ _ _ RK). rewrite blocks_in_count by (rewrite ?E1 in *; assumption || lia). unfold blocks_in. apply Z.div_pos; nia. }
    assert (PL : playable s1) by (split; [exact (ok_mem _ (mo_cpu _ _ _ (pl_machine _ _ _ (tu_playing _ T))))|exact (tu_info _ T)]).
    pose proof (wpg_ok _ _ _ _ _ (play_song_tuned song duration s1 PL RK W) EP) as W2. cbv beta iota in W2. destruct (W2 eq_refl) as [T2 ST].
    destruct ST as [_ _ _ D1 _ R1 _ _ _]. split; [exact T2|]. rewrite D1, R1, E1. now split.
  - pose proof (wpg_ok _ _ _ _ _ (generate_tuned buffer bufferLen f s T H1 H2) E) as (l & D). destruct D as [D1 D2 _ _ _ _ _ _ _ _].
    split; [exact D1|]. unfold quiet_settings in D2. assert (Q1 : m_currentDuration s' = m_currentDuration s) by congruence.
    assert (Q2 : m_currentSampleRate s' = m_currentSampleRate s) by congruence. rewrite Q1, Q2. now split.
  - assert (HD : 0 < m_currentDuration s -> block <= milliseconds_to_blocks (m_currentDuration s) s).
    { intros D. pose proof (ro_pos _ _ _ (tu_rate _ T)). rewrite blocks_in_count by (assumption || lia). now apply H2. }
    pose proof (wpg_ok _ _ _ _ _ (seek_tuned block s T H1 HD) E) as W. cbv beta iota in W. destruct (W eq_refl) as (T2 & _ & D2). split; [exact T2|].
    unfold quiet_settings in D2. assert (Q1 : m_currentDuration s' = m_currentDuration s) by congruence.
    assert (Q2 : m_currentSampleRate s' = m_currentSampleRate s) by congruence. rewrite Q1, Q2. now split.
  - split; [apply mute_tuned; exact T|]. now split.
  - split; [apply (detect_tuned seconds s); assumption|]. unfold api_detect_silence in E. destruct (chk _) as [v| | |]; cbn [bind] in E; try discriminate E. injection E as <-. now split.
Qed.

(* ---- ASAP_Generate returns exactly when the blocks can be played ---- *)
Lemma generate_iff buf bufLen f s r buf' s' : tuned s -> m_silenceCycles s <= 0 -> 0 <= bufLen <= len buf -> bufLen <= int_max ->
  api_generate buf bufLen f s = Ok (r, buf', s') <->
  m_blocksPlayed s + wanted bufLen f s <= int_max /\ exists k l, plays f k s l s' /\ len l = wanted bufLen f s /\
    r = wanted bufLen f s * (i_channels (m_info s) * bytes_per_sample f) /\ buf' = splice buf 0 (concat l).
Proof.
  intros T SC Hb Hm. pose proof (wanted_range bufLen f s T ltac:(lia)) as [W1 W2]. pose proof (tuned_matched f s T) as M. pose proof (tuned_bytes f s T) as BB.
  assert (LM : generate_limit bufLen f s = Ok (wanted bufLen f s)).
  { destruct (generate_limit bufLen f s) as [n| |q|] eqn:L; [f_equal; exact (limit_wanted _ _ _ _ T L)| | |];
      exfalso; unfold generate_limit in L; cbv zeta in L; destruct (0 <? m_currentDuration s) eqn:D; try discriminate L;
      pose proof (tu_total _ T ltac:(lia)) as TT; pose proof (pl_played _ _ _ (tu_playing _ T)) as PP;
      unfold chk, is_int in L; assert (milliseconds_to_blocks (m_currentDuration s) s <= int_max) by (unfold milliseconds_to_blocks, wrap32, int_max; lia);
      destruct ((int_min <=? _) && _) eqn:Q in L; cbn [bind] in L; try discriminate L; unfold int_min, int_max in *; lia. }
  unfold api_generate, generate_at. replace ((0 <? m_silenceCycles s) && (m_silenceCyclesCounter s <=? 0)) with false by (destruct (0 <? m_silenceCycles s) eqn:?; [lia|reflexivity]).
  cbv zeta. rewrite LM. cbn [bind].
  pose proof (fun q => generate_loop_iff B HO HR (buffer_size (m_currentSampleRate s)) f s buf 0 (wanted bufLen f s) q (tu_playing _ T) M SC (Z.le_refl 0) W1 ltac:(rewrite BB; lia)) as G.
  destruct M as [M1 M2]. split.
  - intros E. destruct (loopZ _ _ _) as [[[block b] t]| | |]; cbn [bind] in E; try discriminate E. destruct (proj1 (G _) eq_refl) as (G1 & k & l & t2 & PL & LL & EQ).
    injection EQ as -> -> ->. injection E as <- <- <-. split; [exact G1|]. exists k, l. split; [exact PL|]. split; [exact LL|]. split; [|reflexivity].
    rewrite Z.shiftl_mul_pow2, <- M2, BB by exact M1. reflexivity.
  - intros (G1 & k & l & PL & LL & -> & ->). rewrite (proj2 (G (wanted bufLen f s, splice buf 0 (concat l), s')) (conj G1 (ex_intro _ k (ex_intro _ l (ex_intro _ s' (conj PL (conj LL eq_refl))))))).
    cbn [bind]. rewrite Z.shiftl_mul_pow2, <- M2, BB by exact M1. reflexivity.
Qed.

Lemma block_size_pos f s : tuned s -> 1 <= block_size f s <= 4.
Proof. intros T. destruct (tu_info _ T) as [C _]. unfold block_size, bytes_per_sample. destruct C as [-> | ->], f; lia. Qed.

Lemma firstn_splice buf l : len l <= len buf -> firstn (Z.to_nat (len l)) (splice buf 0 l) = l.
Proof. intros H. pose proof (slice_splice buf 0 l ltac:(lia) ltac:(lia)) as S. unfold slice in S. cbn [Z.to_nat skipn] in S. etransitivity; [|exact S]. f_equal. lia. Qed.

Lemma delivers_iff buf bufLen f s out s' : tuned s -> m_silenceCycles s <= 0 -> 0 <= bufLen <= len buf -> bufLen <= int_max ->
  delivers buf bufLen f s out s' <->
  m_blocksPlayed s + wanted bufLen f s <= int_max /\ exists k l, plays f k s l s' /\ len l = wanted bufLen f s /\ out = concat l.
Proof.
  intros T SC Hb Hm. pose proof (wanted_range bufLen f s T ltac:(lia)) as [W1 W2]. pose proof (block_size_pos f s T) as BS. fold (block_size f s) in W2.
  assert (K : forall r buf', api_generate buf bufLen f s = Ok (r, buf', s') -> exists k l, plays f k s l s' /\ len l = wanted bufLen f s /\
     r = wanted bufLen f s * block_size f s /\ buf' = splice buf 0 (concat l) /\ len (concat l) = r).
  { intros r buf' E. pose proof (wpg_ok _ _ _ _ _ (generate_tuned buf bufLen f s T Hb Hm) E) as (l2 & D). cbv beta iota in D.
    apply (generate_iff buf bufLen f s r buf' s' T SC Hb Hm) in E. destruct E as (_ & k & l & PL & LL & ER & EB). fold (block_size f s) in ER. exists k, l.
    destruct (de_plays _ _ _ _ _ _ _ _ D SC) as [k2 P2]. pose proof (de_count _ _ _ _ _ _ _ _ D) as C2. fold (block_size f s) in C2.
    assert (L2 : len l2 = len l) by nia. destruct (plays_same _ _ _ _ _ PL _ _ _ P2 ltac:(unfold len in L2; lia)) as (_ & -> & _).
    repeat (split; [assumption|]). exact (de_bytes _ _ _ _ _ _ _ _ D). }
  split.
  - intros (r & buf' & E & EO & LO). destruct (K r buf' E) as (k & l & PL & LL & ER & EB & LC).
    split; [exact (proj1 (proj1 (generate_iff buf bufLen f s r buf' s' T SC Hb Hm) E))|]. exists k, l. split; [exact PL|]. split; [exact LL|].
    rewrite EO, EB, <- LC. apply firstn_splice. lia.
  - intros (H1 & k & l & PL & LL & ->).
    assert (E : api_generate buf bufLen f s = Ok (wanted bufLen f s * block_size f s, splice buf 0 (concat l), s')).
    { apply (generate_iff buf bufLen f s _ _ s' T SC Hb Hm). split; [exact H1|]. exists k, l. now repeat split. }
    destruct (K _ _ E) as (k2 & l2 & P2 & L2 & _ & _ & LC). destruct (plays_same _ _ _ _ _ PL _ _ _ P2 ltac:(unfold len in *; lia)) as (_ & -> & _).
    eexists _, _. split; [exact E|]. rewrite <- LC. split; [|reflexivity]. symmetry. apply firstn_splice. lia.
Qed.

Lemma plays_tuned f n s s' : tuned s -> m_silenceCycles s <= 0 -> 0 <= n -> n * block_size f s <= int_max -> forall buf out, len buf = n * block_size f s ->
  delivers buf (n * block_size f s) f s out s' -> tuned s' /\ quiet_settings s' = quiet_settings s /\ m_blocksPlayed s' = m_blocksPlayed s + wanted (n * block_size f s) f s.
Proof.
  intros T SC Hn Hm buf out LB (r & buf' & E & _). pose proof (block_size_pos f s T) as BS.
  pose proof (wpg_ok _ _ _ _ _ (generate_tuned buf (n * block_size f s) f s T ltac:(nia) Hm) E) as (l2 & D). cbv beta iota in D.
  split; [exact (de_tuned _ _ _ _ _ _ _ _ D)|]. split; [exact (de_set _ _ _ _ _ _ _ _ D)|]. rewrite (de_played _ _ _ _ _ _ _ _ D). f_equal.
  destruct (de_range _ _ _ _ _ _ _ _ D) as [_ R2]. destruct (Z_lt_ge_dec (len l2) (wanted (n * block_size f s) f s)) as [Q|Q]; [|lia].
  pose proof (de_all _ _ _ _ _ _ _ _ D Q). lia.
Qed.
Lemma wanted_whole n f s : tuned s -> wanted (n * block_size f s) f s =
  if 0 <? m_currentDuration s then Z.min n (milliseconds_to_blocks (m_currentDuration s) s - m_blocksPlayed s) else n.
Proof. intros T. pose proof (block_size_pos f s T). unfold wanted. cbv zeta. fold (block_size f s). rewrite Z.div_mul by lia. reflexivity. Qed.

Lemma generate_split n m f s buf1 buf2 buf out s' : tuned s -> m_silenceCycles s <= 0 -> 0 <= n -> 0 <= m -> (n + m) * block_size f s <= int_max ->
  len buf1 = n * block_size f s -> len buf2 = m * block_size f s -> len buf = (n + m) * block_size f s ->
  delivers buf ((n + m) * block_size f s) f s out s' <->
  exists out1 s1 out2, delivers buf1 (n * block_size f s) f s out1 s1 /\ delivers buf2 (m * block_size f s) f s1 out2 s' /\ out = out1 ++ out2.
Proof.
  intros T SC Hn Hm HM L1 L2 L. pose proof (block_size_pos f s T) as BS. set (c := block_size f s) in *.
  assert (N1 : 0 <= n * c) by nia. assert (N2 : 0 <= m * c) by nia.
  assert (ST : forall out1 s1, delivers buf1 (n * c) f s out1 s1 -> tuned s1 /\ m_silenceCycles s1 <= 0 /\ block_size f s1 = c /\
      wanted ((n + m) * c) f s = wanted (n * c) f s + wanted (m * c) f s1 /\ m_blocksPlayed s1 = m_blocksPlayed s + wanted (n * c) f s).
  { intros out1 s1 D. destruct (plays_tuned f n s s1 T SC Hn ltac:(fold c; nia) buf1 out1 L1 D) as (T1 & Q & P). unfold quiet_settings in Q.
    assert (Q1 : m_info s1 = m_info s) by congruence. assert (Q2 : m_silenceCycles s1 = m_silenceCycles s) by congruence.
    assert (Q3 : m_currentDuration s1 = m_currentDuration s) by congruence. assert (Q4 : m_currentSampleRate s1 = m_currentSampleRate s) by congruence.
    assert (Q5 : block_size f s1 = c) by (unfold c, block_size; now rewrite Q1). split; [exact T1|]. split; [lia|]. split; [exact Q5|]. split; [|exact P].
    fold c in P. unfold c at 1 2. rewrite !wanted_whole by exact T. rewrite <- Q5, wanted_whole by exact T1. rewrite P. unfold c. rewrite !wanted_whole by exact T.
    unfold milliseconds_to_blocks. rewrite Q3, Q4. pose proof (tu_total _ T). unfold milliseconds_to_blocks in *. destruct (0 <? m_currentDuration s) eqn:D1; lia. }
  pose proof (fun bf k t o t' => delivers_iff bf k f t o t') as DI.
  assert (A1 : 0 <= n * c <= len buf1) by (clear - L1 N1; lia). assert (A2 : 0 <= m * c <= len buf2) by (clear - L2 N2; lia).
  assert (A3 : 0 <= (n + m) * c <= len buf) by (clear - L N1 N2; lia). assert (A4 : n * c <= int_max) by (clear - HM N2; lia). assert (A5 : m * c <= int_max) by (clear - HM N1; lia).
  split.
  - intros D. destruct (proj1 (DI buf ((n + m) * c) s _ _ T SC A3 HM) D) as (B1 & k & l & PL & LL & ->).
    pose proof (wanted_whole n f s T) as WN. pose proof (wanted_whole (n + m) f s T) as WM. fold c in WN, WM.
    assert (W0 : 0 <= wanted (n * c) f s <= wanted ((n + m) * c) f s).
    { rewrite WN, WM. pose proof (tu_total _ T). destruct (0 <? m_currentDuration s) eqn:D1; lia. }
    assert (LS : l = firstn (Z.to_nat (wanted (n * c) f s)) l ++ skipn (Z.to_nat (wanted (n * c) f s)) l) by (symmetry; apply firstn_skipn).
    destruct (plays_split _ _ _ _ _ PL _ _ LS) as (k1 & k2 & s1 & -> & P1 & P2).
    assert (D1 : delivers buf1 (n * c) f s (concat (firstn (Z.to_nat (wanted (n * c) f s)) l)) s1).
    { apply (DI buf1 (n * c) s _ _ T SC A1 A4). split; [lia|]. exists k1, (firstn (Z.to_nat (wanted (n * c) f s)) l). split; [exact P1|]. split; [|reflexivity].
      unfold len in *. rewrite firstn_length. lia. }
    destruct (ST _ _ D1) as (T1 & SC1 & B2 & W & P). exists (concat (firstn (Z.to_nat (wanted (n * c) f s)) l)), s1, (concat (skipn (Z.to_nat (wanted (n * c) f s)) l)).
    split; [exact D1|]. split; [|rewrite <- concat_app; now rewrite <- LS].
    apply (DI buf2 (m * c) s1 _ _ T1 SC1 A2 A5). split; [lia|]. exists k2, (skipn (Z.to_nat (wanted (n * c) f s)) l). split; [exact P2|]. split; [|reflexivity].
    unfold len in *. rewrite skipn_length. lia.
  - intros (out1 & s1 & out2 & D1 & D2 & ->). destruct (ST _ _ D1) as (T1 & SC1 & B2 & W & P).
    destruct (proj1 (DI buf1 (n * c) s _ _ T SC A1 A4) D1) as (B1 & k1 & l1 & P1 & LL1 & ->).
    destruct (proj1 (DI buf2 (m * c) s1 _ _ T1 SC1 A2 A5) D2) as (B3 & k2 & l2 & P2 & LL2 & ->).
    apply (DI buf ((n + m) * c) s _ _ T SC A3 HM). split; [lia|]. exists (k1 + k2), (l1 ++ l2). split; [exact (plays_app _ _ _ _ _ P1 _ _ _ P2)|].
    split; [rewrite len_app; lia|now rewrite concat_app].
Qed.
End Session.
