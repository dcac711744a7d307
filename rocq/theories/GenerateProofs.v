(* ASAP_Generate as a stream of blocks: what it returns does not depend on how it is asked for *)
From Verif Require Import Base BaseFacts Loop MemModel InfoModel PokeyModel MachineModel PlayModel CpuProofs PokeyProofs MachineProofs FrameProofs
  WriterModel WriterProofs StoreProofs PlaySpec PokeyFacts.

(* ---- one block ---- *)
Definition block_at (f : sample_format) (i : Z) (pp : pokeyPair) : outcome (list Z * pokeyPair) :=
  '(v, p) <- next_sample i (pp_basePokey pp) ;;
  let pp := set_pp_basePokey p pp in
  if pp_extraPokeyMask pp =? 0 then Ok (sample_bytes f v, pp)
  else '(w, q) <- next_sample i (pp_extraPokey pp) ;; Ok (sample_bytes f v ++ sample_bytes f w, set_pp_extraPokey q pp).
Fixpoint blocks_at (n : nat) (f : sample_format) (i : Z) (pp : pokeyPair) : outcome (list (list Z) * pokeyPair) :=
  match n with
  | O => Ok ([], pp)
  | S k => '(b, pp) <- block_at f i pp ;; '(l, pp) <- blocks_at k f (i + 1) pp ;; Ok (b :: l, pp)
  end.

(* the end of a frame's samples is remembered for the next frame *)
Definition used (i : Z) (pp : pokeyPair) : pokeyPair :=
  set_pp_readySamplesStart i
    (if i =? pp_readySamplesEnd pp
     then set_pp_extraPokey (set_pk_trailing i (pp_extraPokey pp)) (set_pp_basePokey (set_pk_trailing i (pp_basePokey pp)) pp)
     else pp).

(* the next block of the song, when the current frame has one *)
Definition take_block (f : sample_format) (s : asap) : outcome (list Z * asap) :=
  let i := pp_readySamplesStart (m_pokeys s) in
  '(b, pp) <- block_at f i (m_pokeys s) ;;
  Ok (b, set_m_blocksPlayed (m_blocksPlayed s + 1) (set_m_pokeys (used (i + 1) pp) s)).
Fixpoint take_blocks (n : nat) (f : sample_format) (s : asap) : outcome (list (list Z) * asap) :=
  match n with
  | O => Ok ([], s)
  | S k => '(b, s) <- take_block f s ;; '(l, s) <- take_blocks k f s ;; Ok (b :: l, s)
  end.

(* playing: blocks are taken from the frame while there are any, then the next frame is emulated *)
Inductive plays (f : sample_format) : Z -> asap -> list (list Z) -> asap -> Prop :=
| plays_none s : plays f 0 s [] s
| plays_block k s b s1 l s2 : pp_readySamplesStart (m_pokeys s) < pp_readySamplesEnd (m_pokeys s) ->
    take_block f s = Ok (b, s1) -> plays f k s1 l s2 -> plays f k s (b :: l) s2
| plays_frame k s c s1 b l s2 : pp_readySamplesEnd (m_pokeys s) <= pp_readySamplesStart (m_pokeys s) ->
    do_frame s = Ok (c, s1) -> plays f k s1 (b :: l) s2 -> plays f (k + 1) s (b :: l) s2.

Lemma plays_frames f k s l s' : plays f k s l s' -> 0 <= k.
Proof. induction 1; lia. Qed.
Lemma plays_end f k s s' : plays f k s [] s' -> k = 0 /\ s' = s.
Proof. intros H. inversion H; subst. now split. Qed.

Lemma plays_app f : forall k1 s l1 s1, plays f k1 s l1 s1 -> forall k2 l2 s2, plays f k2 s1 l2 s2 -> plays f (k1 + k2) s (l1 ++ l2) s2.
Proof.
  induction 1 as [s|k s b s1 l s2 R T P IH|k s c s1 b l s2 R D P IH]; intros k2 l2 s3 Q.
  - exact Q.
  - cbn [app]. eapply plays_block; eauto.
  - replace (k + 1 + k2) with (k + k2 + 1) by lia. cbn [app]. eapply plays_frame; eauto.
Qed.
Lemma plays_split f : forall k s l s2, plays f k s l s2 -> forall l1 l2, l = l1 ++ l2 ->
  exists k1 k2 s1, k = k1 + k2 /\ plays f k1 s l1 s1 /\ plays f k2 s1 l2 s2.
Proof.
  induction 1 as [s|k s b s1 l s2 R T P IH|k s c s1 b l s2 R D P IH]; intros l1 l2 E.
  - symmetry in E. apply app_eq_nil in E. destruct E as [-> ->]. exists 0, 0, s. split; [lia|]. split; constructor.
  - destruct l1 as [|x l1]; cbn [app] in E.
    + subst l2. exists 0, k, s. split; [lia|]. split; [constructor|]. eapply plays_block; eauto.
    + injection E as <- E. destruct (IH l1 l2 E) as (k1 & k2 & t & -> & P1 & P2). exists k1, k2, t. split; [lia|]. split; [|exact P2]. eapply plays_block; eauto.
  - destruct l1 as [|x l1]; cbn [app] in E.
    + subst l2. exists 0, (k + 1), s. split; [lia|]. split; [constructor|]. eapply plays_frame; eauto.
    + destruct (IH (x :: l1) l2 E) as (k1 & k2 & t & -> & P1 & P2). exists (k1 + 1), k2, t. split; [lia|]. split; [|exact P2]. injection E as <- E. eapply plays_frame; eauto.
Qed.
Lemma plays_same f : forall k s l s', plays f k s l s' -> forall k2 l2 s2, plays f k2 s l2 s2 -> length l2 = length l -> k2 = k /\ l2 = l /\ s2 = s'.
Proof.
  induction 1 as [s|k s b s1 l s2 R T P IH|k s c s1 b l s2 R D P IH]; intros k2 l2 s3 Q L.
  - destruct l2; [|discriminate L]. apply plays_end in Q. destruct Q. now subst.
  - inversion Q as [|? ? ? ? ? ? R' T' P'|? ? ? ? ? ? ? R' D' P']; subst; [discriminate L| |lia].
    rewrite T in T'. injection T' as <- <-. destruct (IH _ _ _ P') as (-> & -> & ->); [cbn in L; lia|]. now split.
  - inversion Q as [|? ? ? ? ? ? R' T' P'|? ? ? ? ? ? ? R' D' P']; subst; [discriminate L|lia|].
    rewrite D in D'. injection D' as <- <-. destruct (IH _ _ _ P') as (-> & E & ->); [exact L|]. now rewrite E.
Qed.

(* ---- PokeyPair_Generate is taking blocks ---- *)
Lemma next_sample_shape i p v p' : next_sample i p = Ok (v, p') -> exists a, p' = set_pk_iirAcc a p.
Proof.
  unfold next_sample. intros E. destruct (get _ i) as [d| | |]; cbn [bind] in E; try discriminate E. unfold chk in E.
  do 3 (destruct (is_int _); cbn [bind] in E; [|discriminate E]). injection E as _ <-. eexists. reflexivity.
Qed.

Lemma block_at_fixed f i pp b pp' : block_at f i pp = Ok (b, pp') -> fixed pp' = fixed pp.
Proof.
  unfold block_at. intros E. destruct (next_sample i (pp_basePokey pp)) as [[v p]| | |]; cbn [bind] in E; try discriminate E. cbv zeta in E.
  cbn [pp_extraPokeyMask set_pp_basePokey pp_extraPokey] in E. destruct (_ =? 0); [injection E as _ <-; reflexivity|].
  destruct (next_sample i (pp_extraPokey pp)) as [[w q]| | |]; cbn [bind] in E; try discriminate E. injection E as _ <-. reflexivity.
Qed.

Lemma block_at_start f i x pp : block_at f i (set_pp_readySamplesStart x pp) = ('(b, pp') <- block_at f i pp ;; Ok (b, set_pp_readySamplesStart x pp')).
Proof.
  unfold block_at. cbn [pp_basePokey set_pp_readySamplesStart pp_extraPokey pp_extraPokeyMask set_pp_basePokey].
  destruct (next_sample i (pp_basePokey pp)) as [[v p]| | |]; cbn [bind]; try reflexivity. cbv zeta. cbn [pp_extraPokeyMask set_pp_basePokey pp_extraPokey set_pp_readySamplesStart].
  destruct (_ =? 0); [reflexivity|]. destruct (next_sample i (pp_extraPokey pp)) as [[w q]| | |]; reflexivity.
Qed.
Lemma blocks_at_start n f : forall i x pp, blocks_at n f i (set_pp_readySamplesStart x pp) = ('(l, pp') <- blocks_at n f i pp ;; Ok (l, set_pp_readySamplesStart x pp')).
Proof.
  induction n as [|n IH]; intros i x pp; cbn [blocks_at]; [reflexivity|]. rewrite block_at_start.
  destruct (block_at f i pp) as [[b pp1]| | |]; cbn [bind]; try reflexivity. rewrite IH. destruct (blocks_at n f (i + 1) pp1) as [[l pp2]| | |]; reflexivity.
Qed.
Lemma blocks_at_fixed n f : forall i pp l pp', blocks_at n f i pp = Ok (l, pp') -> fixed pp' = fixed pp /\ length l = n.
Proof.
  induction n as [|n IH]; intros i pp l pp' E; cbn [blocks_at] in E; [injection E as <- <-; now split|].
  destruct (block_at f i pp) as [[b pp1]| | |] eqn:B; cbn [bind] in E; try discriminate E. apply block_at_fixed in B.
  destruct (blocks_at n f (i + 1) pp1) as [[l1 pp2]| | |] eqn:R; cbn [bind] in E; try discriminate E. injection E as <- <-.
  destruct (IH _ _ _ _ R) as [R1 R2]. split; [congruence|cbn; lia].
Qed.

(* as many blocks as the frame has *)
Lemma take_blocks_at n f : forall s, pp_readySamplesStart (m_pokeys s) + Z.of_nat n <= pp_readySamplesEnd (m_pokeys s) ->
  take_blocks n f s = ('(l, pp) <- blocks_at n f (pp_readySamplesStart (m_pokeys s)) (m_pokeys s) ;;
    Ok (l, match n with O => s | _ => set_m_blocksPlayed (m_blocksPlayed s + Z.of_nat n)
            (set_m_pokeys (used (pp_readySamplesStart (m_pokeys s) + Z.of_nat n) pp) s) end)).
Proof.
  induction n as [|n IH]; intros s H; cbn [take_blocks blocks_at]; [reflexivity|].
  unfold take_block. cbv zeta. set (i := pp_readySamplesStart (m_pokeys s)) in *.
  destruct (block_at f i (m_pokeys s)) as [[b pp1]| | |] eqn:E; cbn [bind]; try reflexivity. apply block_at_fixed in E.
  assert (EE : pp_readySamplesEnd pp1 = pp_readySamplesEnd (m_pokeys s)) by (unfold fixed in E; congruence).
  destruct n as [|n].
  - cbn [take_blocks blocks_at bind]. replace (Z.of_nat 1) with 1 by lia. reflexivity.
  - assert (U : used (i + 1) pp1 = set_pp_readySamplesStart (i + 1) pp1).
    { unfold used. destruct (i + 1 =? pp_readySamplesEnd pp1) eqn:Q; [lia|reflexivity]. }
    rewrite U. rewrite IH.
    + cbn [m_pokeys set_m_pokeys set_m_blocksPlayed pp_readySamplesStart set_pp_readySamplesStart m_blocksPlayed]. rewrite blocks_at_start.
      destruct (blocks_at (S n) f (i + 1) pp1) as [[l pp2]| | |]; cbn [bind]; try reflexivity.
      f_equal. f_equal. replace (i + 1 + Z.of_nat (S n)) with (i + Z.of_nat (S (S n))) by lia.
      replace (m_blocksPlayed s + 1 + Z.of_nat (S n)) with (m_blocksPlayed s + Z.of_nat (S (S n))) by lia.
      assert (V : forall x y, used x (set_pp_readySamplesStart y pp2) = used x pp2) by (intros x y; unfold used; cbn [pp_readySamplesEnd set_pp_readySamplesStart pp_extraPokey pp_basePokey]; destruct (x =? _); reflexivity).
      rewrite V. reflexivity.
    + cbn [m_pokeys set_m_pokeys set_m_blocksPlayed pp_readySamplesStart set_pp_readySamplesStart pp_readySamplesEnd]. lia.
Qed.

Lemma store_app r1 : forall l i r2, store_bytes l i (r1 ++ r2) = (b <- store_bytes l i r1 ;; store_bytes b (i + len r1) r2).
Proof.
  induction r1 as [|v r1 IH]; intros l i r2; cbn [app store_bytes bind].
  - change (len []) with 0. now rewrite Z.add_0_r.
  - destruct (set_nth l i v) as [b| | |]; cbn [bind]; try reflexivity. rewrite IH. rewrite len_cons. replace (i + (1 + len r1)) with (i + 1 + len r1) by lia. reflexivity.
Qed.

(* a block that is stored *)
Lemma generate_block_iff f i buf off pp b' off' pp' :
  generate_block f i (buf, off, pp) = Ok (b', off', pp') <-> exists b, block_at f i pp = Ok (b, pp') /\ store_bytes buf off b = Ok b' /\ off' = off + len b.
Proof.
  unfold generate_block, store_sample, block_at. destruct (next_sample i (pp_basePokey pp)) as [[v p]| | |]; cbn [bind]; try (split; [discriminate|intros (b & E & _); discriminate E]).
  cbv zeta. cbn [pp_extraPokeyMask set_pp_basePokey pp_extraPokey].
  destruct (store_bytes buf off (sample_bytes f v)) as [b1| | |] eqn:S1; cbn [bind].
  2-4: (split; [discriminate|intros (b & E & S & _)]; destruct (pp_extraPokeyMask pp =? 0); [injection E as <- <-; congruence|];
        destruct (next_sample i (pp_extraPokey pp)) as [[w q]| | |]; cbn [bind] in E; try discriminate E; injection E as <- <-; rewrite store_app, S1 in S; discriminate S).
  destruct (pp_extraPokeyMask pp =? 0).
  { split.
    - intros E. injection E as <- <- <-. eexists. split; [reflexivity|]. now split.
    - intros (b & E & S & ->). injection E as <- <-. rewrite S1 in S. injection S as ->. reflexivity. }
  destruct (next_sample i (pp_extraPokey pp)) as [[w q]| | |]; cbn [bind]; try (split; [discriminate|intros (b & E & _); discriminate E]).
  split.
  - intros E. destruct (store_bytes b1 (off + len (sample_bytes f v)) (sample_bytes f w)) as [b2| | |] eqn:S2; cbn [bind] in E; try discriminate E.
    injection E as <- <- <-. eexists. split; [reflexivity|]. rewrite store_app, S1. cbn [bind]. rewrite len_app. split; [exact S2|lia].
  - intros (b & E & S & ->). injection E as <- <-. rewrite store_app, S1 in S. cbn [bind] in S. rewrite S. cbn [bind]. rewrite len_app. now rewrite Z.add_assoc.
Qed.
Lemma generate_blocks_iff n f : forall i buf off pp b' off' pp',
  generate_blocks n f i (buf, off, pp) = Ok (b', off', pp') <->
  exists l, blocks_at n f i pp = Ok (l, pp') /\ store_bytes buf off (concat l) = Ok b' /\ off' = off + len (concat l).
Proof.
  induction n as [|n IH]; intros i buf off pp b' off' pp'; cbn [generate_blocks blocks_at].
  - split.
    + intros E. injection E as <- <- <-. exists []. split; [reflexivity|]. split; [reflexivity|]. cbn [concat]. change (len []) with 0. lia.
    + intros (l & E & S & ->). injection E as <- <-. cbn [concat store_bytes] in *. injection S as <-. change (len []) with 0. now rewrite Z.add_0_r.
  - split.
    + intros E. destruct (generate_block f i (buf, off, pp)) as [[[b1 off1] pp1]| | |] eqn:G; cbn [bind] in E; try discriminate E.
      apply generate_block_iff in G. destruct G as (b & B & S & ->). apply IH in E. destruct E as (l & L & S2 & ->).
      exists (b :: l). rewrite B. cbn [bind]. rewrite L. cbn [bind concat]. rewrite store_app, S. cbn [bind]. split; [reflexivity|]. split; [exact S2|]. rewrite len_app. lia.
    + intros (l & E & S & ->). destruct (block_at f i pp) as [[b pp1]| | |] eqn:B; cbn [bind] in E; try discriminate E.
      destruct (blocks_at n f (i + 1) pp1) as [[l1 pp2]| | |] eqn:R; cbn [bind] in E; try discriminate E. injection E as <- <-. cbn [concat] in *.
      rewrite store_app in S. destruct (store_bytes buf off b) as [b1| | |] eqn:S1; cbn [bind] in S; try discriminate S.
      assert (G : generate_block f i (buf, off, pp) = Ok (b1, off + len b, pp1)) by (apply generate_block_iff; eauto). rewrite G. cbn [bind].
      apply IH. exists l1. split; [exact R|]. split; [exact S|]. rewrite len_app. lia.
Qed.

(* ---- playing ---- *)
Section Playing.
Variable B : ub_reason -> Prop.
Hypothesis HO : B UbOverflow.
Hypothesis HR : B UbRead.
(* the length of the delta buffers *)
Variable N : Z.

Definition trail (e : Z) : Prop := 0 <= e <= N /\ (B UbOverlap \/ N <= 2 * e).
Definition sizes : Z * Z -> Z -> Z -> Prop := fun _ n t => n = N /\ trail t.

Record playing (s : asap) : Prop := mkPlaying {
  pl_machine : machine_ok B sizes s;
  pl_enough : forall o, 0 <= o < 262144 ->
    let e := (o + frame_cycles (m_info s) * pp_sampleFactor (m_pokeys s)) / 262144 in 1 <= e /\ trail e;
  pl_offset : 0 <= pp_sampleOffset (m_pokeys s) < 262144;
  pl_ready : 0 <= pp_readySamplesStart (m_pokeys s) <= pp_readySamplesEnd (m_pokeys s);
  pl_end : pp_readySamplesEnd (m_pokeys s) = 0 \/ trail (pp_readySamplesEnd (m_pokeys s));
  pl_played : 0 <= m_blocksPlayed s
}.

Lemma sizes_start f n t : sizes f n t -> 0 <= t <= n /\ (B UbOverlap \/ n <= 2 * t).
Proof. intros [-> H]. exact H. Qed.

Lemma frame_playing s : playing s ->
  wpg B False (do_frame s) (fun r => let '(c, s') := r in
    playing s' /\ c = frame_cycles (m_info s) /\ settings s' = settings s /\ pp_readySamplesStart (m_pokeys s') = 0 /\ 1 <= pp_readySamplesEnd (m_pokeys s') /\
    pp_extraPokeyMask (m_pokeys s') = pp_extraPokeyMask (m_pokeys s)).
Proof.
  intros [P1 P2 P3 P4 P5 P6]. eapply wpg_mono.
  - apply (do_frame_ok B False HO sizes sizes_start).
    + intros _. left. exact HR.
    + exact P1.
    + left. exact HR.
  - intros [c s'] (M & S & C & E). unfold ended in E. cbv zeta in E. set (t := pp_sampleOffset (m_pokeys s) + c * pp_sampleFactor (m_pokeys s)) in *.
    unfold fixed in E. injection E as E1 E2 E3 E4 E5 E6 E7.
    assert (I : m_info s' = m_info s) by (unfold settings in S; congruence).
    assert (Q : m_blocksPlayed s' = m_blocksPlayed s) by (unfold settings in S; congruence).
    specialize (P2 _ P3) as R. cbv zeta in R. rewrite <- C in R. fold t in R.
    split; [|split; [exact C|split; [exact S|split; [exact E6|split; [lia|exact E1]]]]].
    constructor; [exact M| |lia|lia| |lia].
    + intros o Ho. specialize (P2 o Ho). cbv zeta in *. rewrite I, E4. exact P2.
    + rewrite E7. right. apply R.
Qed.

Definition pair_live (s : asap) (pp : pokeyPair) : Prop :=
  live B sizes pp (last_cycle s) (pp_basePokey pp) /\ live B sizes pp (last_cycle s) (pp_extraPokey pp).

Lemma live_acc pp limit a p : live B sizes pp limit p -> live B sizes pp limit (set_pk_iirAcc a p).
Proof. intros L. apply live_intro with p; [exact L| |now split|]; [destruct (lv_ok _ _ _ _ _ L); constructor; assumption|intros []; constructor; assumption]. Qed.
Lemma live_trailing pp limit e p : trail e -> live B sizes pp limit p -> live B sizes pp limit (set_pk_trailing e p).
Proof.
  intros E [L1 L2 L3 L4]. constructor; [destruct L1; constructor; assumption|exact L2| |].
  - destruct L3 as [L3|L3]; [left; exact L3|right; destruct L3; constructor; assumption].
  - destruct L4 as [L4 _]. split; [exact L4|exact E].
Qed.
Lemma live_fixed pp pp' limit p : fixed pp' = fixed pp -> live B sizes pp limit p -> live B sizes pp' limit p.
Proof. intros E. apply live_pair; unfold rates, fixed in *; congruence. Qed.

(* the sizes of the blocks *)
Definition block_bytes (f : sample_format) (pp : pokeyPair) : Z := (if pp_extraPokeyMask pp =? 0 then 1 else 2) * bytes_per_sample f.

Lemma sample_bytes_len f v : len (sample_bytes f v) = bytes_per_sample f.
Proof. destruct f; reflexivity. Qed.
Lemma block_bytes_pos f pp : 1 <= block_bytes f pp.
Proof. unfold block_bytes, bytes_per_sample. destruct (_ =? 0), f; lia. Qed.

Lemma next_sample_playing s pp i p : pair_live s pp -> live B sizes pp (last_cycle s) p -> 0 <= i < N -> wpg B False (next_sample i p) (fun r => live B sizes pp (last_cycle s) (snd r)).
Proof.
  intros _ L H. unfold next_sample. apply wpg_bind. destruct (lv_size _ _ _ _ _ L) as [Z _]. apply wpg_get; [|left; lia]. intros _.
  apply wpg_bind, wpg_chk; [intros _|right; exact HO]. apply wpg_bind, wpg_chk; [intros _|right; exact HO]. apply wpg_bind, wpg_chk; [intros _|right; exact HO].
  cbn [wpg snd]. now apply live_acc.
Qed.

Lemma generate_block_playing s f i buf off pp : pair_live s pp -> 0 <= i < N -> 0 <= off -> off + block_bytes f pp <= len buf ->
  wpg B False (generate_block f i (buf, off, pp)) (fun r => let '(b', off', pp') := r in
    pair_live s pp' /\ fixed pp' = fixed pp /\ len b' = len buf /\ off' = off + block_bytes f pp).
Proof.
  intros [L1 L2] Hi H1 H2. unfold generate_block, store_sample, block_bytes in *.
  apply wpg_bind, wpg_bind. eapply wpg_mono; [apply (next_sample_playing s pp i); [split; assumption|assumption|assumption]|]. intros [v p] Lp. cbn [snd] in Lp. cbv zeta.
  assert (BP : 1 <= bytes_per_sample f) by (destruct f; cbn; lia).
  apply wpg_bind. rewrite store_bytes_ok; [|exact H1|rewrite sample_bytes_len; destruct (_ =? 0); lia]. cbn [wpg].
  cbn [pp_extraPokeyMask set_pp_basePokey pp_extraPokey].
  assert (LS : len (splice buf off (sample_bytes f v)) = len buf) by (apply len_splice; rewrite ?sample_bytes_len; [lia|destruct (_ =? 0); lia]).
  destruct (pp_extraPokeyMask pp =? 0).
  - cbn [wpg]. split; [split; apply live_fixed with pp; try reflexivity; assumption|]. split; [reflexivity|]. split; [exact LS|rewrite sample_bytes_len; lia].
  - apply wpg_bind, wpg_bind. eapply wpg_mono; [apply (next_sample_playing s pp i); [split; assumption|assumption|assumption]|]. intros [w q] Lq. cbn [snd] in Lq. cbv zeta.
    apply wpg_bind. rewrite store_bytes_ok; [|rewrite sample_bytes_len; lia|rewrite !sample_bytes_len, LS; lia]. cbn [wpg].
    split; [split; apply live_fixed with pp; try reflexivity; assumption|]. split; [reflexivity|].
    split; [rewrite len_splice; rewrite ?LS, ?sample_bytes_len; lia|rewrite !sample_bytes_len; lia].
Qed.

Lemma block_bytes_fixed f pp pp' : fixed pp' = fixed pp -> block_bytes f pp' = block_bytes f pp.
Proof. unfold fixed, block_bytes. intros E. assert (X : pp_extraPokeyMask pp' = pp_extraPokeyMask pp) by congruence. now rewrite X. Qed.

Lemma generate_blocks_playing s f n : forall i buf off pp, pair_live s pp -> 0 <= i -> i + Z.of_nat n <= N -> 0 <= off -> off + Z.of_nat n * block_bytes f pp <= len buf ->
  wpg B False (generate_blocks n f i (buf, off, pp)) (fun r => let '(b', off', pp') := r in pair_live s pp' /\ fixed pp' = fixed pp /\ len b' = len buf).
Proof.
  induction n as [|n IH]; intros i buf off pp L H1 H2 H3 H4; cbn [generate_blocks]; [cbn [wpg]; now split|].
  pose proof (block_bytes_pos f pp) as BP.
  apply wpg_bind. eapply wpg_mono; [apply (generate_block_playing s); [exact L|lia|lia|nia]|]. intros [[b1 off1] pp1] (L1 & F1 & E1 & ->).
  eapply wpg_mono; [apply IH; [exact L1|lia|lia|lia|rewrite (block_bytes_fixed _ _ _ F1), E1; nia]|].
  intros [[b2 off2] pp2] (L2 & F2 & E2). split; [exact L2|]. split; congruence.
Qed.

Definition advanced (k : Z) (pp' : pokeyPair) (s : asap) : asap := set_m_blocksPlayed (m_blocksPlayed s + k) (set_m_pokeys pp' s).

Lemma used_live s i pp : (i = pp_readySamplesEnd pp -> trail i) -> pair_live s pp -> pair_live s (used i pp).
Proof.
  intros E [L1 L2]. unfold used. destruct (i =? pp_readySamplesEnd pp) eqn:Q.
  - specialize (E ltac:(lia)). split; apply live_pair with pp; try reflexivity; cbn; now apply live_trailing.
  - split; apply live_pair with pp; try reflexivity; assumption.
Qed.
Lemma used_fixed i pp : fixed (used i pp) = fixed (set_pp_readySamplesStart i pp).
Proof. unfold used. destruct (_ =? _); reflexivity. Qed.

Lemma advanced_0 s : advanced 0 (m_pokeys s) s = s.
Proof. unfold advanced. rewrite Z.add_0_r. destruct s. reflexivity. Qed.

(* PokeyPair_Generate *)
Lemma pair_generate_playing s f buf off blocks : playing s -> 0 <= blocks -> 0 <= off -> off + blocks * block_bytes f (m_pokeys s) <= len buf ->
  wpg B False (pair_generate buf off blocks f (m_pokeys s)) (fun r => let '(k, b', pp') := r in
    k = Z.min blocks (pp_readySamplesEnd (m_pokeys s) - pp_readySamplesStart (m_pokeys s)) /\ len b' = len buf /\
    playing (advanced k pp' s) /\ fixed pp' = fixed (set_pp_readySamplesStart (pp_readySamplesStart (m_pokeys s) + k) (m_pokeys s)) /\
    exists l, take_blocks (Z.to_nat k) f s = Ok (l, advanced k pp' s) /\ len (concat l) = k * block_bytes f (m_pokeys s) /\ b' = splice buf off (concat l)).
Proof.
  intros [P1 P2 P3 P4 P5 P6] Hb Ho Hl. unfold pair_generate. cbv zeta.
  set (i := pp_readySamplesStart (m_pokeys s)) in *. set (e := pp_readySamplesEnd (m_pokeys s)) in *.
  assert (K : (if blocks <? e - i then blocks else e - i) = Z.min blocks (e - i)) by (destruct (blocks <? e - i) eqn:Q; lia). rewrite K. clear K.
  set (k := Z.min blocks (e - i)). assert (Hk : 0 <= k <= e - i /\ k <= blocks) by lia. clearbody k.
  destruct (0 <? k) eqn:Q.
  - assert (T : trail e) by (destruct P5; [lia|assumption]). assert (EN : e <= N) by (unfold trail in T; lia).
    pose proof (block_bytes_pos f (m_pokeys s)) as BP.
    assert (PL : pair_live s (m_pokeys s)) by (destruct P1; split; assumption).
    apply wpg_bind. eapply wpg_mono.
    { apply wpg_eqn. apply (generate_blocks_playing s f (Z.to_nat k) i buf off (m_pokeys s)); [exact PL|lia|lia|lia|nia]. }
    intros [[b' off'] pp'] [(L' & F' & E') GB]. cbn [wpg]. apply generate_blocks_iff in GB. destruct GB as (l & BA & SB & ->).
    assert (RE : pp_readySamplesEnd pp' = e) by (unfold fixed in F'; unfold e; congruence). rewrite RE.
    assert (U : set_pp_readySamplesStart (i + k) (if i + k =? e then set_pp_extraPokey (set_pk_trailing (i + k) (pp_extraPokey pp')) (set_pp_basePokey (set_pk_trailing (i + k) (pp_basePokey pp')) pp') else pp') = used (i + k) pp')
      by (unfold used; now rewrite RE). rewrite U. clear U.
    assert (F2 : fixed (used (i + k) pp') = fixed (set_pp_readySamplesStart (i + k) (m_pokeys s))) by (rewrite used_fixed; unfold fixed in *; cbn; congruence).
    assert (L2 : pair_live s (used (i + k) pp')) by (apply used_live; [intros X; rewrite RE in X; now rewrite X|exact L']).
    split; [reflexivity|]. split; [exact E'|]. split; [|split; [exact F2|]].
    + assert (G4 : pp_sampleFactor (used (i + k) pp') = pp_sampleFactor (m_pokeys s)) by (unfold fixed in F2; cbn [pp_sampleFactor set_pp_readySamplesStart] in F2; congruence).
      assert (G5 : pp_sampleOffset (used (i + k) pp') = pp_sampleOffset (m_pokeys s)) by (unfold fixed in F2; cbn [pp_sampleOffset set_pp_readySamplesStart] in F2; congruence).
      assert (G6 : pp_readySamplesStart (used (i + k) pp') = i + k) by reflexivity.
      assert (G7 : pp_readySamplesEnd (used (i + k) pp') = e) by (unfold fixed in F2; cbn [pp_readySamplesEnd set_pp_readySamplesStart] in F2; fold e in F2; congruence).
      unfold advanced.
      constructor; cbn [m_pokeys set_m_pokeys set_m_blocksPlayed m_info m_blocksPlayed].
      * destruct P1 as [M1 M2 M3 M4]. constructor; [destruct M1; constructor; assumption|exact M2| |]; apply L2.
      * intros o Ho'. specialize (P2 o Ho'). rewrite G4. exact P2.
      * rewrite G5. exact P3.
      * rewrite G6, G7. fold e. lia.
      * rewrite G7. right. exact T.
      * lia.
    + exists l. split; [|split].
      * rewrite take_blocks_at by (fold i e; lia). fold i. rewrite BA. cbn [bind]. destruct (Z.to_nat k) eqn:Zk; [lia|]. unfold advanced. rewrite <- Zk. replace (Z.of_nat (Z.to_nat k)) with k by lia. reflexivity.
      * clear - BA Hk. assert (X : forall n i pp l pp', blocks_at n f i pp = Ok (l, pp') -> len (concat l) = Z.of_nat n * block_bytes f pp).
        { clear. induction n as [|n IH]; intros i pp l pp' E; cbn [blocks_at] in E; [injection E as <- <-; reflexivity|].
          destruct (block_at f i pp) as [[b pp1]| | |] eqn:B1; cbn [bind] in E; try discriminate E.
          destruct (blocks_at n f (i + 1) pp1) as [[l1 pp2]| | |] eqn:R; cbn [bind] in E; try discriminate E. injection E as <- <-.
          cbn [concat]. rewrite len_app, (IH _ _ _ _ R), (block_bytes_fixed f pp pp1 (block_at_fixed _ _ _ _ _ B1)).
          assert (LB : len b = block_bytes f pp); [|nia].
          unfold block_at, block_bytes in *. destruct (next_sample i (pp_basePokey pp)) as [[v p]| | |]; cbn [bind] in B1; try discriminate B1. cbv zeta in B1.
          cbn [pp_extraPokeyMask set_pp_basePokey pp_extraPokey] in B1. destruct (_ =? 0); [injection B1 as <- _; rewrite sample_bytes_len; lia|].
          destruct (next_sample i (pp_extraPokey pp)) as [[w q]| | |]; cbn [bind] in B1; try discriminate B1. injection B1 as <- _. rewrite len_app, !sample_bytes_len. lia. }
        rewrite (X _ _ _ _ _ BA). rewrite Z2Nat.id by lia. reflexivity.
      * destruct (list_eq_dec Z.eq_dec (concat l) []) as [Z0|Z0].
        -- rewrite Z0 in *. cbn [store_bytes] in SB. injection SB as <-. now rewrite splice_nil.
        -- now apply store_bytes_inv in SB.
  - assert (k = 0) as -> by lia. cbn [wpg]. split; [reflexivity|]. split; [reflexivity|]. rewrite advanced_0. split; [constructor; assumption|].
    split; [rewrite Z.add_0_r; reflexivity|]. exists []. split; [reflexivity|]. split; [reflexivity|]. now rewrite splice_nil.
Qed.

(* ---- playing through frames ---- *)
Lemma take_block_playing s f b s1 : playing s -> pp_readySamplesStart (m_pokeys s) < pp_readySamplesEnd (m_pokeys s) -> take_block f s = Ok (b, s1) ->
  playing s1 /\ pp_readySamplesStart (m_pokeys s1) = pp_readySamplesStart (m_pokeys s) + 1 /\ pp_readySamplesEnd (m_pokeys s1) = pp_readySamplesEnd (m_pokeys s).
Proof.
  intros [P1 P2 P3 P4 P5 P6] R T. unfold take_block in T. cbv zeta in T. set (i := pp_readySamplesStart (m_pokeys s)) in *. set (e := pp_readySamplesEnd (m_pokeys s)) in *.
  assert (TE : trail e) by (destruct P5; [lia|assumption]).
  assert (PL : pair_live s (m_pokeys s)) by (destruct P1; split; assumption).
  destruct (block_at f i (m_pokeys s)) as [[b1 pp']| | |] eqn:BA; cbn [bind] in T; try discriminate T. injection T as -> <-.
  pose proof (block_at_fixed _ _ _ _ _ BA) as F'.
  assert (L' : pair_live s pp').
  { assert (X : forall p v q, live B sizes (m_pokeys s) (last_cycle s) p -> next_sample i p = Ok (v, q) -> live B sizes (m_pokeys s) (last_cycle s) q).
    { intros p v q L E. destruct (next_sample_shape _ _ _ _ E) as [a ->]. now apply live_acc. }
    destruct PL as [L1 L2]. unfold block_at in BA. destruct (next_sample i (pp_basePokey (m_pokeys s))) as [[v p]| | |] eqn:N1; cbn [bind] in BA; try discriminate BA. cbv zeta in BA.
    cbn [pp_extraPokeyMask set_pp_basePokey pp_extraPokey] in BA. apply X in N1; [|exact L1]. destruct (_ =? 0).
    - injection BA as _ <-. split; (apply live_fixed with (m_pokeys s); [reflexivity|assumption]).
    - destruct (next_sample i (pp_extraPokey (m_pokeys s))) as [[w q]| | |] eqn:N2; cbn [bind] in BA; try discriminate BA. apply X in N2; [|exact L2]. injection BA as _ <-.
      split; (apply live_fixed with (m_pokeys s); [reflexivity|assumption]). }
  assert (RE : pp_readySamplesEnd pp' = e) by (unfold fixed in F'; unfold e; congruence).
  assert (F2 : fixed (used (i + 1) pp') = fixed (set_pp_readySamplesStart (i + 1) (m_pokeys s))) by (rewrite used_fixed; unfold fixed in *; cbn; congruence).
  assert (L2 : pair_live s (used (i + 1) pp')) by (apply used_live; [intros X; rewrite RE in X; now rewrite X|exact L']).
  assert (G4 : pp_sampleFactor (used (i + 1) pp') = pp_sampleFactor (m_pokeys s)) by (unfold fixed in F2; cbn [pp_sampleFactor set_pp_readySamplesStart] in F2; congruence).
  assert (G5 : pp_sampleOffset (used (i + 1) pp') = pp_sampleOffset (m_pokeys s)) by (unfold fixed in F2; cbn [pp_sampleOffset set_pp_readySamplesStart] in F2; congruence).
  assert (G6 : pp_readySamplesStart (used (i + 1) pp') = i + 1) by reflexivity.
  assert (G7 : pp_readySamplesEnd (used (i + 1) pp') = e) by (unfold fixed in F2; cbn [pp_readySamplesEnd set_pp_readySamplesStart] in F2; fold e in F2; congruence).
  cbn [m_pokeys set_m_pokeys set_m_blocksPlayed]. split; [|split; assumption].
  constructor; cbn [m_pokeys set_m_pokeys set_m_blocksPlayed m_info m_blocksPlayed].
  - destruct P1 as [M1 M2 M3 M4]. constructor; [destruct M1; constructor; assumption|exact M2| |]; apply L2.
  - intros o Ho'. specialize (P2 o Ho'). rewrite G4. exact P2.
  - rewrite G5. exact P3.
  - rewrite G6, G7. lia.
  - rewrite G7. right. exact TE.
  - lia.
Qed.

Lemma len_nil_inv {A} (l : list A) : len l = 0 -> l = [].
Proof. clear. destruct l; [reflexivity|]. rewrite len_cons. pose proof (len_nonneg l). lia. Qed.
(* a frame always has a block *)
Definition is_nil {A} (l : list A) : bool := match l with [] => true | _ => false end.
Lemma plays_bound f k s l s' : plays f k s l s' -> playing s -> k + (if pp_readySamplesStart (m_pokeys s) <? pp_readySamplesEnd (m_pokeys s) then 1 else 0) <= len l + (if is_nil l then 1 else 0).
Proof.
  induction 1 as [s|k s b s1 l s2 R T P IH|k s c s1 b l s2 R D P IH]; intros H.
  - cbn [is_nil]. change (len []) with 0. destruct (_ <? _); lia.
  - destruct (take_block_playing _ _ _ _ H R T) as (H1 & _). specialize (IH H1). rewrite len_cons. cbn [is_nil].
    pose proof (len_nonneg l). destruct l as [|x l].
    + apply plays_end in P. destruct P as [-> ->]. clear IH. destruct (pp_readySamplesStart (m_pokeys s) <? _); lia.
    + cbn [is_nil] in IH. destruct (pp_readySamplesStart (m_pokeys s1) <? _), (pp_readySamplesStart (m_pokeys s) <? _); lia.
  - pose proof (wpg_ok _ _ _ _ _ (frame_playing s H) D) as (H1 & _ & _ & S1 & E1 & _). specialize (IH H1). cbn [is_nil] in *.
    destruct (pp_readySamplesStart (m_pokeys s1) <? _) eqn:Q; [|lia]. destruct (pp_readySamplesStart (m_pokeys s) <? _) eqn:Q2; lia.
Qed.

Lemma take_blocks_plays f n : forall s l s1, pp_readySamplesStart (m_pokeys s) + Z.of_nat n <= pp_readySamplesEnd (m_pokeys s) -> take_blocks n f s = Ok (l, s1) -> plays f 0 s l s1.
Proof.
  induction n as [|n IH]; intros s l s1 R T; cbn [take_blocks] in T; [injection T as <- <-; constructor|].
  destruct (take_block f s) as [[b s2]| | |] eqn:E; cbn [bind] in T; try discriminate T.
  destruct (take_blocks n f s2) as [[l2 s3]| | |] eqn:E2; cbn [bind] in T; try discriminate T. injection T as <- <-.
  eapply plays_block; [lia|exact E|]. apply IH; [|exact E2].
  unfold take_block in E. cbv zeta in E. destruct (block_at _ _ _) as [[b' pp']| | |] eqn:BA; cbn [bind] in E; try discriminate E. injection E as -> <-.
  apply block_at_fixed in BA. pose proof (used_fixed (pp_readySamplesStart (m_pokeys s) + 1) pp') as U. cbn [m_pokeys set_m_pokeys set_m_blocksPlayed].
  assert (U1 : pp_readySamplesStart (used (pp_readySamplesStart (m_pokeys s) + 1) pp') = pp_readySamplesStart (m_pokeys s) + 1) by reflexivity.
  assert (U2 : pp_readySamplesEnd (used (pp_readySamplesStart (m_pokeys s) + 1) pp') = pp_readySamplesEnd pp') by (unfold fixed in U; cbn in U |- *; congruence).
  assert (U3 : pp_readySamplesEnd pp' = pp_readySamplesEnd (m_pokeys s)) by (unfold fixed in BA; congruence). lia.
Qed.

(* ---- ASAP_GenerateAt ---- *)
Definition quiet_settings (s : asap) := (m_info s, m_currentSong s, m_currentDuration s, m_silenceCycles s, m_currentSampleRate s, pp_extraPokeyMask (m_pokeys s)).

Lemma playing_counter n s : playing s -> playing (set_m_silenceCyclesCounter n s).
Proof. intros [[[] M2 M3 M4] P2 P3 P4 P5 P6]. constructor; try assumption. constructor; try assumption. constructor; assumption. Qed.

Record generated (f : sample_format) (s0 : asap) (buf : list Z) (off : Z) (l : list (list Z)) (block : Z) (buf' : list Z) (s' : asap) : Prop := mkGenerated {
  ge_playing : playing s';
  ge_set : quiet_settings s' = quiet_settings s0;
  ge_played : m_blocksPlayed s' = m_blocksPlayed s0 + block;
  ge_blocks : len l = block;
  ge_bytes : len (concat l) = block * block_bytes f (m_pokeys s0);
  ge_buf : buf' = splice buf off (concat l);
}.

Definition matched (f : sample_format) (s : asap) : Prop :=
  0 <= block_shift (m_info s) f /\ block_bytes f (m_pokeys s) = 2 ^ block_shift (m_info s) f.

Lemma take_blocks_len f n : forall s l s', take_blocks n f s = Ok (l, s') -> len l = Z.of_nat n.
Proof.
  induction n as [|n IH]; intros s l s' E; cbn [take_blocks] in E; [injection E as <- _; reflexivity|].
  destruct (take_block f s) as [[b s1]| | |]; cbn [bind] in E; try discriminate E. destruct (take_blocks n f s1) as [[l1 s2]| | |] eqn:E1; cbn [bind] in E; try discriminate E.
  injection E as <- _. rewrite len_cons, (IH _ _ _ E1). lia.
Qed.

(* a frame of nothing but playing *)
Lemma quiet_block_bytes f s s' : quiet_settings s' = quiet_settings s -> block_bytes f (m_pokeys s') = block_bytes f (m_pokeys s).
Proof. unfold quiet_settings, block_bytes. intros E. assert (X : pp_extraPokeyMask (m_pokeys s') = pp_extraPokeyMask (m_pokeys s)) by congruence. now rewrite X. Qed.

(* the first half of an iteration *)
Lemma generate_step f s0 buf off n l block buf' s' : matched f s0 -> 0 <= off -> off + n * block_bytes f (m_pokeys s0) <= len buf ->
  generated f s0 buf off l block buf' s' -> 0 <= block <= n ->
  wpg B False (pair_generate buf' (off + Z.shiftl block (block_shift (m_info s0) f)) (n - block) f (m_pokeys s')) (fun r => let '(k, b', pp') := r in
    k = Z.min (n - block) (pp_readySamplesEnd (m_pokeys s') - pp_readySamplesStart (m_pokeys s')) /\
    pp_readySamplesStart pp' = pp_readySamplesStart (m_pokeys s') + k /\ pp_readySamplesEnd pp' = pp_readySamplesEnd (m_pokeys s') /\
    exists l', plays f 0 s' l' (advanced k pp' s') /\ len l' = k /\ generated f s0 buf off (l ++ l') (block + k) b' (advanced k pp' s')).
Proof.
  intros [M1 M2] Ho Hb [G1 G2 G3 G4 G5 G6] Hn. rewrite Z.shiftl_mul_pow2 by exact M1. rewrite <- M2.
  pose proof (block_bytes_pos f (m_pokeys s0)) as BP. pose proof (quiet_block_bytes f _ _ G2) as BB. pose proof (len_nonneg (concat l)) as LN.
  assert (LB : len buf' = len buf) by (rewrite G6, len_splice; [reflexivity|exact Ho|rewrite G5; nia]).
  eapply wpg_mono; [apply (pair_generate_playing s' f buf' (off + block * block_bytes f (m_pokeys s0)) (n - block) G1); [lia|nia|rewrite BB, LB; nia]|].
  intros [[k b'] pp'] (K & LB' & P' & F' & l' & T & L' & ->).
  assert (S' : pp_readySamplesStart pp' = pp_readySamplesStart (m_pokeys s') + k) by (unfold fixed in F'; cbn in F'; congruence).
  assert (E' : pp_readySamplesEnd pp' = pp_readySamplesEnd (m_pokeys s')) by (unfold fixed in F'; cbn in F'; congruence).
  assert (X' : pp_extraPokeyMask pp' = pp_extraPokeyMask (m_pokeys s')) by (unfold fixed in F'; cbn in F'; congruence).
  destruct G1 as [Q1 Q2 Q3 Q4 Q5 Q6].
  assert (K0 : 0 <= k) by lia.
  pose proof (take_blocks_len _ _ _ _ _ T) as TL. rewrite Z2Nat.id in TL by exact K0.
  split; [exact K|]. split; [exact S'|]. split; [exact E'|]. exists l'.
  split; [eapply take_blocks_plays; [|exact T]; lia|]. split; [exact TL|].
  constructor.
  - exact P'.
  - unfold quiet_settings, advanced in *. cbn [m_info m_currentSong m_currentDuration m_silenceCycles m_currentSampleRate m_pokeys set_m_blocksPlayed set_m_pokeys]. congruence.
  - unfold advanced. cbn [m_blocksPlayed set_m_blocksPlayed]. lia.
  - rewrite len_app. lia.
  - rewrite concat_app, len_app, L', BB, G5. lia.
  - rewrite concat_app, G6. rewrite <- G5. rewrite splice_splice; [reflexivity|exact Ho|]. rewrite L', BB, G5. nia.
Qed.

Lemma chk_inv v x : chk v = Ok x -> x = v /\ int_min <= v <= int_max.
Proof. unfold chk, is_int. destruct ((int_min <=? v) && (v <=? int_max)) eqn:E; intros H; [injection H as <-; lia|discriminate H]. Qed.

(* what a whole call does *)
Lemma generate_loop_playing f s0 buf off n : playing s0 -> matched f s0 -> 0 <= off -> 0 <= n <= int_max -> off + n * block_bytes f (m_pokeys s0) <= len buf ->
  wpg B False (loopZ generate_fuel (generate_iter off n (block_shift (m_info s0) f) f) (0, buf, s0)) (fun r => let '(block, buf', s') := r in
    exists l, generated f s0 buf off l block buf' s' /\ 0 <= block <= n /\ (m_silenceCycles s0 <= 0 -> block = n /\ exists k, plays f k s0 l s') /\
      (block < n -> m_silenceCyclesCounter s' <= 0) /\ m_blocksPlayed s' <= int_max).
Proof.
  intros P0 M Ho Hn Hb.
  apply (loopZ_wpg B False _
    (fun st => let '(block, buf', s') := st in exists l, generated f s0 buf off l block buf' s' /\ 0 <= block <= n /\ (block = 0 /\ s' = s0 \/ block < n) /\
       (m_silenceCycles s0 <= 0 -> forall k l2 s2, l2 <> [] -> plays f k s' l2 s2 -> exists k2, plays f k2 s0 (l ++ l2) s2) /\
       (block = 0 /\ s' = s0 \/ pp_readySamplesStart (m_pokeys s') < pp_readySamplesEnd (m_pokeys s')))
    (fun st => let '(block, buf', s') := st in 2 * (n - block) + (if pp_readySamplesStart (m_pokeys s') <? pp_readySamplesEnd (m_pokeys s') then 0 else 1))).
  - intros [[block buf'] s'] (l & G & H & _). destruct (_ <? _); lia.
  - intros [[block buf'] s'] (l & G & H & H2 & C & R). unfold generate_iter.
    apply wpg_bind. eapply wpg_mono; [apply (generate_step f s0 buf off n l block buf' s' M Ho Hb G H)|].
    intros [[k b'] pp'] (K & S' & E' & l' & PL & LL & G').
    apply wpg_bind, wpg_chk; [intros BI|right; exact HO]. cbv zeta. fold (advanced k pp' s').
    pose proof (pl_ready _ (ge_playing _ _ _ _ _ _ _ _ G)) as RD.
    assert (AP : forall k2 l2 s2, plays f k2 (advanced k pp' s') l2 s2 -> plays f k2 s' (l' ++ l2) s2) by (intros k2 l2 s2 Q; apply (plays_app _ _ _ _ _ PL _ _ _ Q)).
    destruct (n <=? block + k) eqn:D.
    + cbn [leave wpg]. exists (l ++ l'). split; [exact G'|]. split; [lia|]. split; [|split; [lia|exact (proj2 BI)]]. intros SC. split; [lia|].
      destruct l' as [|x l'].
      * rewrite app_nil_r. change (len []) with 0 in LL. apply plays_end in PL. destruct PL as [_ ->].
        destruct H2 as [[R1 ->]|H2]; [|destruct R as [[R1 _]|R]; lia]. assert (l = []) as -> by (apply len_nil_inv; rewrite (ge_blocks _ _ _ _ _ _ _ _ G); exact R1). exists 0. constructor.
      * apply (C SC 0 (x :: l')); [discriminate|]. exact PL.
    + pose proof (ge_playing _ _ _ _ _ _ _ _ G') as PA.
      apply wpg_bind. eapply wpg_mono; [apply wpg_eqn, (frame_playing _ PA)|]. intros [c s2] ((P2 & C2 & S2 & ST & EN & MK) & DF).
      assert (QS : quiet_settings s2 = quiet_settings s0) by (rewrite <- (ge_set _ _ _ _ _ _ _ _ G'); unfold quiet_settings, settings in *; congruence).
      assert (BP2 : m_blocksPlayed s2 = m_blocksPlayed s0 + (block + k)) by (rewrite <- (ge_played _ _ _ _ _ _ _ _ G'); unfold settings in S2; congruence).
      assert (SC2 : m_silenceCycles s2 = m_silenceCycles s0) by (unfold quiet_settings in QS; congruence).
      assert (RDY : pp_readySamplesEnd pp' <= pp_readySamplesStart pp') by lia.
      assert (GG : forall s3, playing s3 -> quiet_settings s3 = quiet_settings s2 -> m_blocksPlayed s3 = m_blocksPlayed s2 -> generated f s0 buf off (l ++ l') (block + k) b' s3).
      { intros s3 X1 X2 X3. destruct G' as [Y1 Y2 Y3 Y4 Y5 Y6]. constructor; try assumption; congruence. }
      assert (CC : m_silenceCycles s0 <= 0 -> forall k0 l2 s3, l2 <> [] -> plays f k0 s2 l2 s3 -> exists k2, plays f k2 s0 ((l ++ l') ++ l2) s3).
      { intros SC k0 l2 s3 NE Q. rewrite <- app_assoc. destruct l2 as [|x l2]; [congruence|].
        apply (C SC (k0 + 1) (l' ++ x :: l2)); [destruct l'; discriminate|]. apply AP. eapply plays_frame; [exact RDY|exact DF|exact Q]. }
      assert (ME : 2 * (n - (block + k)) + 0 < 2 * (n - block) + (if pp_readySamplesStart (m_pokeys s') <? pp_readySamplesEnd (m_pokeys s') then 0 else 1)) by (destruct (_ <? _) eqn:Q; lia).
      destruct (0 <? m_silenceCycles s2) eqn:SL.
      * destruct (pair_is_silent (m_pokeys s2) && negb (m_gtiaOrCovoxPlayedThisFrame s2)).
        -- cbv zeta. destruct (_ <=? 0) eqn:NC.
           ++ cbn [leave wpg]. exists (l ++ l'). split; [apply GG; [now apply playing_counter|reflexivity|reflexivity]|]. split; [lia|]. split; [intros SC; lia|].
              split; [intros _; cbn [m_silenceCyclesCounter set_m_silenceCyclesCounter]; lia|]. cbn [m_blocksPlayed set_m_silenceCyclesCounter]. pose proof (ge_played _ _ _ _ _ _ _ _ G). lia.
           ++ cbn [continue_ wpg]. split.
              ** exists (l ++ l'). split; [apply GG; [now apply playing_counter|reflexivity|reflexivity]|]. split; [lia|]. split; [lia|]. split; [intros SC; lia|].
                 right. cbn [m_pokeys set_m_silenceCyclesCounter]. lia.
              ** right. cbn [m_pokeys set_m_silenceCyclesCounter]. destruct (pp_readySamplesStart (m_pokeys s2) <? _) eqn:Q; lia.
        -- cbn [continue_ wpg]. split.
           ++ exists (l ++ l'). split; [apply GG; [now apply playing_counter|reflexivity|reflexivity]|]. split; [lia|]. split; [lia|]. split; [intros SC; lia|].
              right. cbn [m_pokeys set_m_silenceCyclesCounter]. lia.
           ++ right. cbn [m_pokeys set_m_silenceCyclesCounter]. destruct (pp_readySamplesStart (m_pokeys s2) <? _) eqn:Q; lia.
      * cbn [continue_ wpg]. split.
        -- exists (l ++ l'). split; [apply GG; [exact P2|reflexivity|reflexivity]|]. split; [lia|]. split; [lia|]. split; [exact CC|]. right. lia.
        -- right. destruct (pp_readySamplesStart (m_pokeys s2) <? _) eqn:Q; lia.
  - exists []. split; [|split; [lia|split; [now left|split; [|now left]]]].
    + constructor; [exact P0|reflexivity|lia|reflexivity|reflexivity|cbn [concat]; now rewrite splice_nil].
    + intros _ k l2 s2 _ Q. exists k. exact Q.
  - right. unfold generate_fuel. destruct (_ <? _); unfold int_max in Hn; lia.
Qed.

(* blocks that the frame has *)
Lemma plays_take f k s l s' : plays f k s l s' -> pp_readySamplesStart (m_pokeys s) + len l <= pp_readySamplesEnd (m_pokeys s) ->
  k = 0 /\ take_blocks (length l) f s = Ok (l, s').
Proof.
  induction 1 as [s|k s b s1 l s2 R T P IH|k s c s1 b l s2 R D P IH]; intros H.
  - now split.
  - rewrite len_cons in H. cbn [length take_blocks]. rewrite T. cbn [bind]. destruct IH as [-> IH]; [|rewrite IH; now split].
    unfold take_block in T. cbv zeta in T. destruct (block_at _ _ _) as [[b' pp']| | |] eqn:BA; cbn [bind] in T; try discriminate T. injection T as -> <-.
    apply block_at_fixed in BA. pose proof (used_fixed (pp_readySamplesStart (m_pokeys s) + 1) pp') as U. cbn [m_pokeys set_m_pokeys set_m_blocksPlayed].
    assert (U1 : pp_readySamplesStart (used (pp_readySamplesStart (m_pokeys s) + 1) pp') = pp_readySamplesStart (m_pokeys s) + 1) by reflexivity.
    assert (U2 : pp_readySamplesEnd (used (pp_readySamplesStart (m_pokeys s) + 1) pp') = pp_readySamplesEnd pp') by (unfold fixed in U; cbn in U |- *; congruence).
    assert (U3 : pp_readySamplesEnd pp' = pp_readySamplesEnd (m_pokeys s)) by (unfold fixed in BA; congruence). lia.
  - rewrite len_cons in H. pose proof (len_nonneg l). lia.
Qed.

(* PokeyPair_Generate when the blocks can be taken *)
Lemma pair_generate_takes s f buf off blocks l s' : 0 <= blocks -> 0 <= pp_readySamplesStart (m_pokeys s) <= pp_readySamplesEnd (m_pokeys s) ->
  0 <= off -> off + len (concat l) <= len buf ->
  len l = Z.min blocks (pp_readySamplesEnd (m_pokeys s) - pp_readySamplesStart (m_pokeys s)) -> take_blocks (length l) f s = Ok (l, s') ->
  exists pp', pair_generate buf off blocks f (m_pokeys s) = Ok (len l, splice buf off (concat l), pp') /\ s' = advanced (len l) pp' s.
Proof.
  intros Hb HR0 Ho Hl K T. unfold pair_generate. cbv zeta.
  set (i := pp_readySamplesStart (m_pokeys s)) in *. set (e := pp_readySamplesEnd (m_pokeys s)) in *.
  assert (K2 : (if blocks <? e - i then blocks else e - i) = len l) by (destruct (blocks <? e - i) eqn:Q; lia). rewrite K2. clear K2.
  destruct l as [|x l].
  - cbn [concat take_blocks length] in *. injection T as <-. change (0 <? len []) with false. cbv iota. exists (m_pokeys s). split; [now rewrite splice_nil|]. symmetry. apply advanced_0.
  - rewrite take_blocks_at in T by (fold i e; unfold len in K; lia). fold i in T.
    destruct (blocks_at (length (x :: l)) f i (m_pokeys s)) as [[l2 pp2]| | |] eqn:BA; cbn [bind] in T; try discriminate T.
    injection T as -> <-. assert (P : 0 <? len (x :: l) = true) by (rewrite len_cons; pose proof (len_nonneg l); lia). rewrite P.
    assert (GB : generate_blocks (Z.to_nat (len (x :: l))) f i (buf, off, m_pokeys s) = Ok (splice buf off (concat (x :: l)), off + len (concat (x :: l)), pp2)).
    { apply generate_blocks_iff. exists (x :: l). split; [unfold len; rewrite Nat2Z.id; exact BA|]. split; [|reflexivity]. now apply store_bytes_ok. }
    rewrite GB. cbn [bind]. destruct (blocks_at_fixed _ _ _ _ _ _ BA) as [F' _].
    eexists. split; [reflexivity|]. unfold advanced. cbn [length]. change (Z.of_nat (S (length l))) with (len (x :: l)). unfold used. reflexivity.
Qed.

Lemma blocks_at_bytes f n : forall i pp l pp', blocks_at n f i pp = Ok (l, pp') -> len (concat l) = Z.of_nat n * block_bytes f pp.
Proof.
  clear. induction n as [|n IH]; intros i pp l pp' E; cbn [blocks_at] in E; [injection E as <- <-; reflexivity|].
  destruct (block_at f i pp) as [[b pp1]| | |] eqn:B1; cbn [bind] in E; try discriminate E.
  destruct (blocks_at n f (i + 1) pp1) as [[l1 pp2]| | |] eqn:R; cbn [bind] in E; try discriminate E. injection E as <- <-.
  cbn [concat]. rewrite len_app, (IH _ _ _ _ R), (block_bytes_fixed f pp pp1 (block_at_fixed _ _ _ _ _ B1)).
  assert (LB : len b = block_bytes f pp); [|nia].
  unfold block_at, block_bytes in *. destruct (next_sample i (pp_basePokey pp)) as [[v p]| | |]; cbn [bind] in B1; try discriminate B1. cbv zeta in B1.
  cbn [pp_extraPokeyMask set_pp_basePokey pp_extraPokey] in B1. destruct (_ =? 0); [injection B1 as <- _; rewrite sample_bytes_len; lia|].
  destruct (next_sample i (pp_extraPokey pp)) as [[w q]| | |]; cbn [bind] in B1; try discriminate B1. injection B1 as <- _. rewrite len_app, !sample_bytes_len. lia.
Qed.
Lemma take_blocks_bytes f n s l s' : pp_readySamplesStart (m_pokeys s) + Z.of_nat n <= pp_readySamplesEnd (m_pokeys s) -> take_blocks n f s = Ok (l, s') ->
  len (concat l) = Z.of_nat n * block_bytes f (m_pokeys s).
Proof.
  clear. intros H T. rewrite take_blocks_at in T by exact H. destruct (blocks_at _ _ _ _) as [[l2 pp2]| | |] eqn:BA; cbn [bind] in T; try discriminate T.
  injection T as -> _. eapply blocks_at_bytes. exact BA.
Qed.

(* ---- and a call that can be played is made ---- *)
Lemma generate_iter_plays f s0 buf off n l0 block buf' s' k l s2 : matched f s0 -> m_silenceCycles s0 <= 0 -> 0 <= off -> 0 <= n ->
  off + n * block_bytes f (m_pokeys s0) <= len buf -> m_blocksPlayed s0 + n <= int_max ->
  generated f s0 buf off l0 block buf' s' -> plays f k s' l s2 -> len l = n - block -> 0 <= block -> 0 <= m_blocksPlayed s0 ->
  generate_iter off n (block_shift (m_info s0) f) f (block, buf', s') = leave (n, splice buf off (concat (l0 ++ l)), s2) \/
  exists la lb s3 k3, l = la ++ lb /\ k = k3 + 1 /\ plays f k3 s3 lb s2 /\ generated f s0 buf off (l0 ++ la) (block + len la) (splice buf off (concat (l0 ++ la))) s3 /\
    generate_iter off n (block_shift (m_info s0) f) f (block, buf', s') = continue_ (block + len la, splice buf off (concat (l0 ++ la)), s3).
Proof.
  intros M SC Ho Hn Hb HI G PL LL Hbl HB0.
  pose proof (plays_frames _ _ _ _ _ PL) as K0; pose proof (pl_ready _ (ge_playing _ _ _ _ _ _ _ _ G)) as RD; pose proof (len_nonneg l) as LN.
  pose proof (block_bytes_pos f (m_pokeys s0)) as BP.
  set (t := Z.min (n - block) (pp_readySamplesEnd (m_pokeys s') - pp_readySamplesStart (m_pokeys s'))).
  assert (SP : exists la lb, l = la ++ lb /\ len la = t)
    by (exists (firstn (Z.to_nat t) l), (skipn (Z.to_nat t) l); split; [symmetry; apply firstn_skipn|]; rewrite len_firstn; lia).
  destruct SP as (la & lb & -> & LA). rewrite len_app in LL. pose proof (len_nonneg la). pose proof (len_nonneg lb). assert (BN : block <= n) by lia.
  destruct (plays_split _ _ _ _ _ PL la lb eq_refl) as (ka & kb & sa & -> & PA & PB).
  destruct (plays_take _ _ _ _ _ PA) as [-> TA]; [lia|].
  pose proof (take_blocks_bytes f (length la) s' la sa ltac:(unfold len in LA; lia) TA) as LC. fold (len la) in LC.
  rewrite (quiet_block_bytes f _ _ (ge_set _ _ _ _ _ _ _ _ G)) in LC.
  assert (LB : len buf' = len buf) by (rewrite (ge_buf _ _ _ _ _ _ _ _ G), len_splice; [reflexivity|exact Ho|rewrite (ge_bytes _ _ _ _ _ _ _ _ G); clear - BN BP Hb; nia]).
  pose proof M as [M1 M2].
  destruct (pair_generate_takes s' f buf' (off + Z.shiftl block (block_shift (m_info s0) f)) (n - block) la sa) as (pp' & PG & SA);
    [lia|exact RD|rewrite Z.shiftl_mul_pow2, <- M2 by exact M1; nia|rewrite Z.shiftl_mul_pow2, <- M2 by exact M1; rewrite LC, LB; nia|exact LA|exact TA|].
  pose proof (wpg_ok _ _ _ _ _ (generate_step f s0 buf off n l0 block buf' s' M Ho Hb G ltac:(lia)) PG) as (_ & S' & E' & l' & PL' & LL' & G').
  rewrite <- SA in PL', G'.
  destruct (plays_same _ _ _ _ _ PA _ _ _ PL') as (_ & -> & _); [unfold len in LL'; lia|].
  pose proof (ge_buf _ _ _ _ _ _ _ _ G') as GB. pose proof (ge_playing _ _ _ _ _ _ _ _ G') as PP. pose proof (ge_played _ _ _ _ _ _ _ _ G') as GP. pose proof (ge_played _ _ _ _ _ _ _ _ G) as GP0.
  unfold generate_iter. rewrite PG. cbn [bind]. rewrite GB in *.
  assert (CH : chk (m_blocksPlayed s' + len la) = Ok (m_blocksPlayed s' + len la)).
  { unfold chk, is_int. destruct ((int_min <=? _) && (_ <=? int_max)) eqn:Q; [reflexivity|]. unfold int_min in Q. lia. }
  rewrite CH. cbn [bind]. cbv zeta. fold (advanced (len la) pp' s'). rewrite <- SA.
  destruct (n <=? block + len la) eqn:D.
  - left. assert (lb = []) as -> by (apply len_nil_inv; pose proof (len_nonneg lb); lia). apply plays_end in PB. destruct PB as [-> ->]. rewrite app_nil_r.
    rewrite len_nil in LL. replace (block + len la) with n by lia. reflexivity.
  - right. inversion PB as [|? ? ? ? ? ? R' T'|? ? c s3 b lb' ? R' D' P']; subst lb.
    + rewrite len_nil in LL. lia.
    + assert (pp_readySamplesStart (m_pokeys sa) = pp_readySamplesStart pp' /\ pp_readySamplesEnd (m_pokeys sa) = pp_readySamplesEnd pp') by (rewrite SA; now split). lia.
    + pose proof (wpg_ok _ _ _ _ _ (frame_playing sa PP) D') as (P2 & C2 & S2 & ST & EN & MK).
      exists la, (b :: lb'), s3, k. split; [reflexivity|]. split; [lia|]. split; [exact P'|].
      assert (QS : quiet_settings s3 = quiet_settings s0) by (rewrite <- (ge_set _ _ _ _ _ _ _ _ G'); unfold quiet_settings, settings in *; congruence).
      assert (G3 : generated f s0 buf off (l0 ++ la) (block + len la) (splice buf off (concat (l0 ++ la))) s3).
      { destruct G' as [Y1 Y2 Y3 Y4 Y5 Y6]. constructor; try assumption. rewrite <- Y3. unfold settings in S2. congruence. }
      split; [exact G3|]. rewrite D'. cbn [bind].
      assert (SC3 : m_silenceCycles s3 = m_silenceCycles s0) by (unfold quiet_settings in QS; congruence).
      destruct (0 <? m_silenceCycles s3) eqn:Q; [lia|reflexivity].
Qed.

Lemma plays_loop f s0 buf off n : matched f s0 -> m_silenceCycles s0 <= 0 -> 0 <= off -> 0 <= n -> off + n * block_bytes f (m_pokeys s0) <= len buf ->
  m_blocksPlayed s0 + n <= int_max -> 0 <= m_blocksPlayed s0 ->
  forall fuel k l0 block buf' s' l s2, generated f s0 buf off l0 block buf' s' -> k <= Z.of_nat fuel ->
    plays f k s' l s2 -> len l = n - block -> 0 <= block ->
    loop fuel (generate_iter off n (block_shift (m_info s0) f) f) (block, buf', s') = Ok (n, splice buf off (concat (l0 ++ l)), s2).
Proof.
  intros M SC Ho Hn Hb HI HB0. induction fuel as [|fuel IH]; intros k l0 block buf' s' l s2 G HK PL LL Hbl.
  all: destruct (generate_iter_plays f s0 buf off n l0 block buf' s' k l s2 M SC Ho Hn Hb HI G PL LL Hbl HB0) as [E|(la & lb & s3 & k3 & -> & -> & P3 & G3 & E)];
    cbn [loop]; rewrite E; cbn [leave continue_ bind]; try reflexivity.
  - pose proof (plays_frames _ _ _ _ _ P3). lia.
  - rewrite app_assoc. rewrite len_app in LL. pose proof (len_nonneg la). apply (IH k3); [exact G3|lia|exact P3|lia|lia].
Qed.

Lemma generate_loop_iff f s0 buf off n r : playing s0 -> matched f s0 -> m_silenceCycles s0 <= 0 -> 0 <= off -> 0 <= n <= int_max ->
  off + n * block_bytes f (m_pokeys s0) <= len buf ->
  loopZ generate_fuel (generate_iter off n (block_shift (m_info s0) f) f) (0, buf, s0) = Ok r <->
  m_blocksPlayed s0 + n <= int_max /\ exists k l s', plays f k s0 l s' /\ len l = n /\ r = (n, splice buf off (concat l), s').
Proof.
  intros P M SC Ho Hn Hb. split.
  - intros E. pose proof (wpg_ok _ _ _ _ _ (generate_loop_playing f s0 buf off n P M Ho Hn Hb) E) as H. destruct r as [[block buf'] s'].
    destruct H as (l & G & _ & H & _ & H2). destruct (H SC) as [-> [k PL]]. split; [rewrite <- (ge_played _ _ _ _ _ _ _ _ G); exact H2|].
    exists k, l, s'. split; [exact PL|]. split; [exact (ge_blocks _ _ _ _ _ _ _ _ G)|]. now rewrite (ge_buf _ _ _ _ _ _ _ _ G).
  - intros (HI & k & l & s' & PL & LL & ->). rewrite loopZ_loop.
    pose proof (plays_bound _ _ _ _ _ PL P) as PB.
    assert (G0 : generated f s0 buf off [] 0 buf s0) by (constructor; [exact P|reflexivity|lia|reflexivity|reflexivity|cbn [concat]; now rewrite splice_nil]).
    refine (plays_loop f s0 buf off n M SC Ho ltac:(lia) Hb HI (pl_played _ P) _ k [] 0 buf s0 l s' G0 _ PL ltac:(lia) ltac:(lia)).
    unfold generate_fuel, int_max in *. destruct (is_nil l), (_ <? _) in PB; lia.
Qed.
End Playing.
