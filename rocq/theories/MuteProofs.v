(* What muting channels does *)
From Verif Require Import Base BaseFacts Loop MemModel InfoModel NativeModel WriterModel PokeyModel MachineModel PlayModel SoundSpec SoundProofs.

Lemma mute_bits mask i : 0 <= i -> negb (Z.land mask (Z.shiftl 1 i) =? 0) = Z.testbit mask i.
Proof.
  intros Hi. rewrite Z.shiftl_1_l. destruct (Z.testbit mask i) eqn:T.
  - destruct (Z.land mask (2 ^ i) =? 0) eqn:E; [|reflexivity]. apply Z.eqb_eq in E. apply (f_equal (fun v => Z.testbit v i)) in E.
    rewrite Z.land_spec, T, Z.pow2_bits_true, Z.bits_0 in E by lia. discriminate E.
  - assert (Z.land mask (2 ^ i) = 0) as ->; [|reflexivity]. apply Z.bits_inj'. intros n Hn. rewrite Z.land_spec, Z.bits_0.
    destruct (Z.eq_dec n i) as [->|N]; [now rewrite T|]. rewrite Z.pow2_bits_false by lia. apply andb_false_r.
Qed.
Lemma bit_of_2 j : Z.testbit 2 j = (j =? 1).
Proof.
  change 2 with (2 ^ 1). destruct (Z.eq_dec j 1) as [->|N]; [reflexivity|]. rewrite Z.pow2_bits_false by lia. symmetry. now apply Z.eqb_neq.
Qed.
(* one channel *)
Definition mute_one (on : bool) (c c' : channel) : Prop :=
  (forall j, 0 <= j -> Z.testbit (ch_mute c') j = if j =? 1 then on else Z.testbit (ch_mute c) j) /\
  (if on then ch_tickCycle c' = never else ch_tickCycle c <> never -> ch_tickCycle c' = ch_tickCycle c) /\
  ch_audf c' = ch_audf c /\ ch_audc c' = ch_audc c /\ ch_periodCycles c' = ch_periodCycles c /\ ch_timerCycle c' = ch_timerCycle c /\ ch_out c' = ch_out c /\ ch_delta c' = ch_delta c.
Lemma set_mute_one on cycle c : mute_one on c (set_mute on 2 cycle c).
Proof.
  unfold mute_one, set_mute. destruct on.
  - split; [|repeat split]. intros j Hj. cbn [ch_mute set_ch_tickCycle set_ch_mute]. rewrite Z.lor_spec, bit_of_2. destruct (j =? 1); [apply orb_true_r|apply orb_false_r].
  - cbv zeta. split; [|destruct (_ && _) eqn:E; repeat split].
    + intros j Hj. assert (ch_mute (if (ch_mute (set_ch_mute (Z.land (ch_mute c) (Z.lnot 2)) c) =? 0) && (ch_tickCycle (set_ch_mute (Z.land (ch_mute c) (Z.lnot 2)) c) =? never)
        then set_ch_tickCycle cycle (set_ch_mute (Z.land (ch_mute c) (Z.lnot 2)) c) else set_ch_mute (Z.land (ch_mute c) (Z.lnot 2)) c) = Z.land (ch_mute c) (Z.lnot 2)) as ->
        by (destruct (_ && _); reflexivity).
      rewrite Z.land_spec, Z.lnot_spec, bit_of_2 by lia. destruct (j =? 1); [apply andb_false_r|apply andb_true_r].
    + intros N. cbn [ch_tickCycle set_ch_mute] in E. apply andb_true_iff in E. destruct E as [_ E]. apply Z.eqb_eq in E. contradiction.
Qed.
Lemma chan_mute m p i : 0 <= i < 4 -> chan (pokey_mute m p) i = set_mute (negb (Z.land m (Z.shiftl 1 i) =? 0)) 2 0 (chan p i).
Proof. intros Hi. assert (i = 0 \/ i = 1 \/ i = 2 \/ i = 3) as [->|[->|[->| ->]]] by lia; reflexivity. Qed.
Lemma api_mute_channel mask s i : 0 <= i < 8 -> mute_one (Z.testbit mask i) (channel_of s i) (channel_of (api_mute mask s) i).
Proof.
  intros Hi. unfold channel_of, api_mute. cbv zeta. destruct (i <? 4) eqn:C.
  - rewrite Z.mod_small by lia. cbn [m_pokeys set_m_pokeys pp_basePokey set_pp_basePokey set_pp_extraPokey]. rewrite chan_mute, mute_bits by lia. apply set_mute_one.
  - assert (i mod 4 = i - 4) as -> by (symmetry; apply Z.mod_unique_pos with 1; lia).
    cbn [m_pokeys set_m_pokeys pp_extraPokey set_pp_basePokey set_pp_extraPokey]. rewrite chan_mute, mute_bits, Z.shiftr_spec by lia. replace (i - 4 + 4) with i by lia. apply set_mute_one.
Qed.
Lemma api_mute_bare mask s : bare (api_mute mask s) = bare s.
Proof. reflexivity. Qed.

(* ---- all channels muted ---- *)
Lemma generate_none pp c p : all_muted p -> c < never -> generate_until pp c p = Ok p.
Proof.
  intros H Hc. unfold generate_until. assert (N : next_tick c p = c).
  { unfold next_tick. pose proof (proj2 (H 0 ltac:(lia))) as E0. pose proof (proj2 (H 1 ltac:(lia))) as E1. pose proof (proj2 (H 2 ltac:(lia))) as E2. pose proof (proj2 (H 3 ltac:(lia))) as E3.
    change (ch_tickCycle (pk_ch0 p) = never) in E0. change (ch_tickCycle (pk_ch1 p) = never) in E1. change (ch_tickCycle (pk_ch2 p) = never) in E2. change (ch_tickCycle (pk_ch3 p) = never) in E3. lia. }
  rewrite N. replace (c - c + 1) with 1 by lia. unfold loopZ. cbn [iterP Z.to_pos]. unfold generate_step. cbv zeta. rewrite N, Z.eqb_refl. reflexivity.
Qed.
Lemma chan_upd p f i j : 0 <= i < 4 -> 0 <= j < 4 -> chan (upd_chan i f p) j = if j =? i then f (chan p i) else chan p j.
Proof.
  intros Hi Hj. assert (i = 0 \/ i = 1 \/ i = 2 \/ i = 3) as [->|[->|[->| ->]]] by lia; assert (j = 0 \/ j = 1 \/ j = 2 \/ j = 3) as [->|[->|[->| ->]]] by lia; reflexivity.
Qed.
Definition keeps_muted (f : channel -> channel) : Prop := forall c, muted c -> ch_tickCycle c = never -> muted (f c) /\ ch_tickCycle (f c) = never.
Lemma all_muted_upd i f p : 0 <= i < 4 -> keeps_muted f -> all_muted p -> all_muted (upd_chan i f p).
Proof.
  intros Hi Hf H j Hj. rewrite chan_upd by assumption. destruct (j =? i); [|now apply H]. destruct (H i Hi). now apply Hf.
Qed.
Lemma keeps_audf v : keeps_muted (set_ch_audf v). Proof. intros c H1 H2. split; assumption. Qed.
Lemma keeps_audc v : keeps_muted (set_ch_audc v). Proof. intros c H1 H2. split; assumption. Qed.
Lemma keeps_period v : keeps_muted (set_period v). Proof. intros c H1 H2. split; assumption. Qed.
Lemma keeps_timer v : keeps_muted (set_ch_timerCycle v). Proof. intros c H1 H2. split; assumption. Qed.
Lemma keeps_delta v : keeps_muted (set_ch_delta v). Proof. intros c H1 H2. split; assumption. Qed.
Lemma keeps_stimer v : keeps_muted (do_stimer v). Proof. intros c H1 H2. unfold do_stimer. rewrite H2, Z.eqb_refl. split; assumption. Qed.
Lemma keeps_end c0 : keeps_muted (fun c => if ch_tickCycle c =? never then c else set_ch_tickCycle (ch_tickCycle c - c0) c).
Proof. intros c H1 H2. rewrite H2, Z.eqb_refl. split; assumption. Qed.
Lemma keeps_mute on m cycle : Z.testbit m 1 = false -> keeps_muted (set_mute on m cycle).
Proof.
  intros Hm c H1 H2. unfold muted in *. unfold set_mute. destruct on.
  - split; [|reflexivity]. cbn [ch_mute set_ch_tickCycle set_ch_mute]. now rewrite Z.lor_spec, H1.
  - cbv zeta. cbn [ch_mute set_ch_mute]. assert (T : Z.testbit (Z.land (ch_mute c) (Z.lnot m)) 1 = true) by (rewrite Z.land_spec, Z.lnot_spec, H1, Hm by lia; reflexivity).
    destruct (Z.land (ch_mute c) (Z.lnot m) =? 0) eqn:E; [apply Z.eqb_eq in E; rewrite E in T; discriminate T|]. cbn [andb]. split; [exact T|exact H2].
Qed.
(* no sound: still muted, and nothing was added *)
Definition quiet (p q : pokey) : Prop := all_muted q /\ pk_deltaBuffer q = pk_deltaBuffer p /\ pk_sumDACInputs q = pk_sumDACInputs p /\ pk_sumDACOutputs q = pk_sumDACOutputs p.
Lemma quiet_refl p : all_muted p -> quiet p p. Proof. intros H. repeat split; try reflexivity; apply H; assumption. Qed.
Lemma upd_sound i f p : pk_deltaBuffer (upd_chan i f p) = pk_deltaBuffer p /\ pk_sumDACInputs (upd_chan i f p) = pk_sumDACInputs p /\ pk_sumDACOutputs (upd_chan i f p) = pk_sumDACOutputs p.
Proof. unfold upd_chan, set_chan. destruct (i =? 0); [|destruct (i =? 1); [|destruct (i =? 2)]]; repeat split. Qed.
Lemma quiet_upd i f p q : 0 <= i < 4 -> keeps_muted f -> quiet p q -> quiet p (upd_chan i f q).
Proof.
  intros Hi Hf (H1 & H2 & H3 & H4). destruct (upd_sound i f q) as (E1 & E2 & E3). split; [now apply all_muted_upd|]. split; [congruence|split; congruence].
Qed.
Lemma quiet_r1 v p q : quiet p q -> quiet p (set_pk_reloadCycles1 v q). Proof. intros H. exact H. Qed.
Lemma quiet_r3 v p q : quiet p q -> quiet p (set_pk_reloadCycles3 v q). Proof. intros H. exact H. Qed.
Lemma quiet_div v p q : quiet p q -> quiet p (set_pk_divCycles v q). Proof. intros H. exact H. Qed.
Lemma quiet_audctl v p q : quiet p q -> quiet p (set_pk_audctl v q). Proof. intros H. exact H. Qed.
Lemma quiet_skctl v p q : quiet p q -> quiet p (set_pk_skctl v q). Proof. intros H. exact H. Qed.
Lemma quiet_irqst v p q : quiet p q -> quiet p (set_pk_irqst v q). Proof. intros H. exact H. Qed.
Lemma quiet_init v p q : quiet p q -> quiet p (set_pk_init v q). Proof. intros H. exact H. Qed.
Lemma quiet_poly v p q : quiet p q -> quiet p (set_pk_polyIndex v q). Proof. intros H. exact H. Qed.
#[local] Hint Resolve quiet_refl quiet_r1 quiet_r3 quiet_div quiet_audctl quiet_skctl quiet_irqst quiet_init quiet_poly keeps_audf keeps_audc keeps_period keeps_timer keeps_delta keeps_stimer keeps_end : quiet.
#[local] Hint Extern 2 (quiet _ (upd_chan _ _ _)) => (apply quiet_upd; [lia| |]) : quiet.
#[local] Hint Extern 2 (keeps_muted (set_mute _ _ _)) => (apply keeps_mute; reflexivity) : quiet.
Ltac quiet := auto 20 with quiet.
Definition quietly (p : pokey) (m : outcome pokey) : Prop := match m with Ok q => quiet p q | _ => True end.
Definition quietly2 (p : pokey) (m : outcome (Z * pokey)) : Prop := match m with Ok q => quiet p (snd q) | _ => True end.
Lemma quietly_bind p m f : quietly p m -> (forall q, quiet p q -> quietly p (f q)) -> quietly p (bind m f).
Proof. destruct m; cbn [quietly bind]; auto. Qed.
Lemma quietly2_bind p m f : quietly2 p m -> (forall q, quiet p (snd q) -> quietly2 p (f q)) -> quietly2 p (bind m f).
Proof. destruct m; cbn [quietly2 bind]; auto. Qed.
Ltac qcases := repeat match goal with |- quietly _ (match ?z with _ => _ end) => destruct z; try exact I end.

Lemma quiet_init_mute c p q : quiet p q -> quiet p (init_mute c q).
Proof. intros H. unfold init_mute. cbv zeta. quiet. Qed.
#[local] Hint Resolve quiet_init_mute : quiet.
Section Muted.
Context (pp : pokeyPair) (c : Z) (p : pokey) (Hp : all_muted p) (Hc : c < never).
Lemma audf0_quiet d : quietly p (poke_audf0 d c pp p).
Proof. unfold poke_audf0. destruct (_ =? _); [cbn [quietly]; quiet|]. rewrite generate_none by assumption. cbn [bind]. cbv zeta. qcases; cbn [quietly]; quiet. Qed.
Lemma audf1_quiet d : quietly p (poke_audf1 d c pp p).
Proof. unfold poke_audf1. destruct (_ =? _); [cbn [quietly]; quiet|]. rewrite generate_none by assumption. cbn [bind]. cbv zeta. qcases; cbn [quietly]; quiet. Qed.
Lemma audf2_quiet d : quietly p (poke_audf2 d c pp p).
Proof. unfold poke_audf2. destruct (_ =? _); [cbn [quietly]; quiet|]. rewrite generate_none by assumption. cbn [bind]. cbv zeta. qcases; cbn [quietly]; quiet. Qed.
Lemma audf3_quiet d : quietly p (poke_audf3 d c pp p).
Proof. unfold poke_audf3. destruct (_ =? _); [cbn [quietly]; quiet|]. rewrite generate_none by assumption. cbn [bind]. cbv zeta. qcases; cbn [quietly]; quiet. Qed.
Lemma audctl_quiet d : quietly p (poke_audctl d c pp p).
Proof.
  unfold poke_audctl. destruct (_ =? _); [cbn [quietly]; quiet|]. rewrite generate_none by assumption. cbn [bind]. cbv zeta.
  apply quietly_bind. { unfold audctl_pair0. cbv zeta. qcases; cbn [quietly]; quiet. }
  intros q Q. apply quietly_bind. { unfold audctl_pair2. cbv zeta. qcases; cbn [quietly]; quiet. }
  intros q' Q'. cbn [quietly]. quiet.
Qed.
Lemma skctl_quiet d : quietly p (poke_skctl d c pp p).
Proof.
  unfold poke_skctl. destruct (_ =? _); [cbn [quietly]; quiet|]. rewrite generate_none by assumption. cbn [bind quietly]. cbv zeta.
  destruct (_ && _); quiet.
Qed.
Lemma muted_bit i : 0 <= i < 4 -> negb (Z.land (ch_mute (chan p i)) 2 =? 0) = true.
Proof. intros Hi. destruct (Hp i Hi) as [M _]. change 2 with (Z.shiftl 1 1). rewrite mute_bits by lia. exact M. Qed.
Lemma audc_quiet i d : 0 <= i < 4 -> quietly p (set_audc pp i d c p).
Proof.
  intros Hi. unfold set_audc. destruct (_ =? _); [cbn [quietly]; quiet|]. rewrite generate_none by assumption. cbn [bind]. cbv zeta.
  rewrite !chan_upd by assumption. rewrite Z.eqb_refl. cbn [ch_mute ch_delta set_ch_audc]. rewrite muted_bit by assumption. cbn [bind].
  qcases; cbn [quietly]; quiet.
Qed.
Lemma irqen_channel_quiet d i x : 0 <= i < 4 -> quiet p (snd x) -> quietly2 p (irqen_channel d c i x).
Proof.
  intros Hi. destruct x as [n q]. cbn [snd]. intros Q. unfold irqen_channel. cbv zeta. destruct (negb _); [destruct (_ =? _)|].
  - match goal with |- context [bind ?x _] => destruct x end; cbn [bind quietly2 snd]; quiet.
  - cbn [quietly2 snd]. exact Q.
  - cbn [quietly2 snd]. quiet.
Qed.
Lemma plain_quiet m : quietly p m -> quietly2 p (plain m).
Proof. destruct m; cbn [plain bind quietly quietly2 snd]; auto. Qed.
Lemma poke_quiet a d : quietly2 p (pokey_poke pp a d c p).
Proof.
  unfold pokey_poke.
  repeat match goal with |- quietly2 _ (match ?z with _ => _ end) => destruct z end.
  all: try (apply plain_quiet; first [apply audf0_quiet | apply audf1_quiet | apply audf2_quiet | apply audf3_quiet | apply audctl_quiet | apply skctl_quiet | apply audc_quiet; lia]).
  all: try (cbn [quietly2 snd]; unfold for_channels; quiet).
  unfold poke_irqen. cbv zeta. apply quietly2_bind; [apply irqen_channel_quiet; [lia|cbn [snd]; quiet]|]. intros x X.
  apply quietly2_bind; [apply irqen_channel_quiet; [lia|exact X]|]. intros y Y. apply irqen_channel_quiet; [lia|exact Y].
Qed.
Lemma end_frame_quiet : quietly p (pokey_end_frame pp c p).
Proof. unfold pokey_end_frame. rewrite generate_none by assumption. cbn [bind quietly]. cbv zeta. unfold for_channels. quiet. Qed.
End Muted.
Lemma poke_muted pp a d c p t q : all_muted p -> c < never -> pokey_poke pp a d c p = Ok (t, q) ->
  all_muted q /\ pk_deltaBuffer q = pk_deltaBuffer p /\ pk_sumDACInputs q = pk_sumDACInputs p /\ pk_sumDACOutputs q = pk_sumDACOutputs p.
Proof. intros H Hc E. pose proof (poke_quiet pp c p H Hc a d) as K. rewrite E in K. exact K. Qed.
Lemma end_frame_muted pp c p q : all_muted p -> c < never -> pokey_end_frame pp c p = Ok q ->
  all_muted q /\ pk_deltaBuffer q = pk_deltaBuffer p /\ pk_sumDACInputs q = pk_sumDACInputs p /\ pk_sumDACOutputs q = pk_sumDACOutputs p.
Proof. intros H Hc E. pose proof (end_frame_quiet pp c p H Hc) as K. rewrite E in K. exact K. Qed.
Lemma mute_all_muted mask p : Z.land mask 15 = 15 -> all_muted (pokey_mute mask p).
Proof.
  intros M i Hi. rewrite chan_mute, mute_bits by lia. assert (T : Z.testbit mask i = true).
  { apply (f_equal (fun v => Z.testbit v i)) in M. rewrite Z.land_spec in M. assert (B : Z.testbit 15 i = true) by (assert (i = 0 \/ i = 1 \/ i = 2 \/ i = 3) as [->|[->|[->| ->]]] by lia; reflexivity).
    rewrite B, andb_true_r in M. exact M. }
  rewrite T. destruct (set_mute_one true 0 (chan p i)) as (B & T' & _). split; [unfold muted; apply (B 1); lia|exact T'].
Qed.

(* ---- what the program sees ---- *)
Lemma silent_upd i f g p : (forall c, silent_channel (f c) = silent_channel (g c)) -> silent_pokey (upd_chan i f p) = silent_pokey (upd_chan i g p).
Proof.
  intros H. unfold upd_chan, set_chan, chan, silent_pokey. destruct (i =? 0); [|destruct (i =? 1); [|destruct (i =? 2)]];
    cbn [pk_ch0 pk_ch1 pk_ch2 pk_ch3 set_pk_ch0 set_pk_ch1 set_pk_ch2 set_pk_ch3 pk_audctl pk_skctl pk_irqst pk_init pk_divCycles pk_reloadCycles1 pk_reloadCycles3 pk_polyIndex]; now rewrite H.
Qed.
Lemma silent_id i f p : (forall c, silent_channel (f c) = silent_channel c) -> silent_pokey (upd_chan i f p) = silent_pokey p.
Proof.
  intros H. rewrite (silent_upd i f (fun c => c) p H). unfold upd_chan, set_chan, chan, silent_pokey. destruct (i =? 0); [|destruct (i =? 1); [|destruct (i =? 2)]]; reflexivity.
Qed.
Definition unheard (p : pokey) (m : outcome pokey) : Prop := match m with Ok q => silent_pokey q = silent_pokey p | _ => True end.
Lemma unheard_bind p m f : unheard p m -> (forall q, silent_pokey q = silent_pokey p -> unheard p (f q)) -> unheard p (bind m f).
Proof. destruct m; cbn [unheard bind]; auto. Qed.
Lemma unheard_eq p q m : silent_pokey q = silent_pokey p -> unheard q m -> unheard p m.
Proof. intros H. destruct m; cbn [unheard]; congruence. Qed.
Lemma add_delta_unheard pp c d p : unheard p (add_delta pp c d p).
Proof.
  unfold add_delta, add_external_delta. cbv zeta.
  match goal with |- unheard _ (bind ?x _) => destruct x end; cbn [bind]; [|exact I|exact I|exact I].
  match goal with |- unheard _ (bind ?x _) => destruct x end; cbn [bind]; [|exact I|exact I|exact I].
  destruct (_ =? 0); [reflexivity|].
  match goal with |- unheard _ (bind (bind ?x _) _) => destruct x end; cbn [bind]; [|exact I|exact I|exact I].
  match goal with |- unheard _ (bind (bind ?x _) _) => destruct x end; cbn [bind]; [|exact I|exact I|exact I]. reflexivity.
Qed.
Lemma slope_unheard pp i c p : unheard p (slope pp i c p).
Proof. unfold slope. cbv zeta. eapply unheard_eq; [|apply add_delta_unheard]. now apply silent_id. Qed.
Lemma do_tick_unheard pp ch c p : unheard p (do_tick pp ch c p).
Proof.
  unfold do_tick. cbv zeta. set (p1 := upd_chan ch _ p).
  assert (E1 : silent_pokey p1 = silent_pokey p) by (now apply silent_id). clearbody p1.
  assert (F : forall o, unheard p (slope pp ch c (upd_chan ch (set_ch_out o) p1))).
  { intros o. eapply unheard_eq; [|apply slope_unheard]. rewrite silent_id by reflexivity. exact E1. }
  destruct (_ =? 160); [apply F|]. destruct (_ || _); [exact E1|].
  match goal with |- unheard _ (bind ?x _) => destruct x as [b| | |] end; cbn [bind]; [|exact I|exact I|exact I]. destruct b; [exact E1|]. destruct (negb _); [apply F|].
  match goal with |- unheard _ (bind ?x _) => destruct x end; cbn [bind]; [|exact I|exact I|exact I]. destruct (_ =? _); [exact E1|apply F].
Qed.
Lemma tick2_unheard pp c p : unheard p (tick2 pp c p).
Proof.
  unfold tick2. destruct (_ =? _); [|reflexivity]. apply unheard_bind.
  - destruct (_ && _); [apply slope_unheard|reflexivity].
  - intros q E. eapply unheard_eq; [exact E|apply do_tick_unheard].
Qed.
Lemma tick3_unheard pp c p : unheard p (tick3 pp c p).
Proof.
  unfold tick3. destruct (_ =? _); [|reflexivity]. cbv zeta. set (p1 := if negb _ then _ else p).
  assert (E1 : silent_pokey p1 = silent_pokey p) by (unfold p1; destruct (negb _); [now apply silent_id|reflexivity]). clearbody p1. apply unheard_bind.
  - destruct (_ && _); [|exact E1]. eapply unheard_eq; [exact E1|apply slope_unheard].
  - intros q E. eapply unheard_eq; [exact E|apply do_tick_unheard].
Qed.
Lemma tick0_unheard pp c p : unheard p (tick0 pp c p).
Proof.
  unfold tick0. destruct (_ =? _); [|reflexivity]. cbv zeta. eapply unheard_eq; [|apply do_tick_unheard]. destruct (_ =? _); [now apply silent_id|reflexivity].
Qed.
Lemma tick1_unheard pp c p : unheard p (tick1 pp c p).
Proof.
  unfold tick1. destruct (_ =? _); [|reflexivity]. cbv zeta. eapply unheard_eq; [|apply do_tick_unheard]. destruct (negb _); [now apply silent_id|]. destruct (negb _); [now apply silent_id|reflexivity].
Qed.
Lemma generate_unheard pp c p : unheard p (generate_until pp c p).
Proof.
  unfold generate_until. destruct (loopZ _ _ p) as [q| | |] eqn:E; try exact I. cbn [unheard].
  apply (loopZ_keeps _ (fun x => silent_pokey x = silent_pokey p) (fun x => silent_pokey x = silent_pokey p)) in E; [exact E| |reflexivity].
  clear. intros q x Q E. unfold generate_step in E. cbv zeta in E. set (cy := next_tick c q) in E. clearbody cy. destruct (cy =? c); [unfold leave in E; injection E as <-; exact Q|].
  match type of E with ?m = _ => assert (K : unheard p (y <- m ;; match y with inl y => Ok y | inr y => Ok y end)) end.
  2: { rewrite E in K. cbn [bind] in K. destruct x; exact K. }
  clear E x. 
  assert (A : forall A B C (m : outcome A) (f : A -> outcome B) (g : B -> outcome C), bind (bind m f) g = bind m (fun a => bind (f a) g)) by (intros; destruct m; reflexivity).
  rewrite A. apply unheard_bind; [eapply unheard_eq; [exact Q|apply tick2_unheard]|]. clear q Q. intros q Q.
  rewrite A. apply unheard_bind; [eapply unheard_eq; [exact Q|apply tick3_unheard]|]. clear q Q. intros q Q.
  rewrite A. apply unheard_bind; [eapply unheard_eq; [exact Q|apply tick0_unheard]|]. clear q Q. intros q Q.
  rewrite A. apply unheard_bind; [eapply unheard_eq; [exact Q|apply tick1_unheard]|]. clear q Q. intros q Q. exact Q.
Qed.
(* what a channel shows *)
Lemma silent_chan p q i : same_program p q -> silent_channel (chan q i) = silent_channel (chan p i).
Proof.
  intros H. unfold chan. destruct (i =? 0); [exact (f_equal pk_ch0 (eq_sym H))|]. destruct (i =? 1); [exact (f_equal pk_ch1 (eq_sym H))|].
  destruct (i =? 2); [exact (f_equal pk_ch2 (eq_sym H))|exact (f_equal pk_ch3 (eq_sym H))].
Qed.
Lemma sp_audf p q i : same_program p q -> ch_audf (chan q i) = ch_audf (chan p i). Proof. intros H. exact (f_equal ch_audf (silent_chan p q i H)). Qed.
Lemma sp_audc p q i : same_program p q -> ch_audc (chan q i) = ch_audc (chan p i). Proof. intros H. exact (f_equal ch_audc (silent_chan p q i H)). Qed.
Lemma sp_period p q i : same_program p q -> ch_periodCycles (chan q i) = ch_periodCycles (chan p i). Proof. intros H. exact (f_equal ch_periodCycles (silent_chan p q i H)). Qed.
Lemma sp_timer p q i : same_program p q -> ch_timerCycle (chan q i) = ch_timerCycle (chan p i). Proof. intros H. exact (f_equal ch_timerCycle (silent_chan p q i H)). Qed.
Lemma sp_audf0 p q : same_program p q -> ch_audf (pk_ch0 q) = ch_audf (pk_ch0 p). Proof. exact (sp_audf p q 0). Qed.
Lemma sp_audf1 p q : same_program p q -> ch_audf (pk_ch1 q) = ch_audf (pk_ch1 p). Proof. exact (sp_audf p q 1). Qed.
Lemma sp_audf2 p q : same_program p q -> ch_audf (pk_ch2 q) = ch_audf (pk_ch2 p). Proof. exact (sp_audf p q 2). Qed.
Lemma sp_audf3 p q : same_program p q -> ch_audf (pk_ch3 q) = ch_audf (pk_ch3 p). Proof. exact (sp_audf p q 3). Qed.
Lemma sp_audctl p q : same_program p q -> pk_audctl q = pk_audctl p. Proof. intros H. exact (f_equal pk_audctl (eq_sym H)). Qed.
Lemma sp_skctl p q : same_program p q -> pk_skctl q = pk_skctl p. Proof. intros H. exact (f_equal pk_skctl (eq_sym H)). Qed.
Lemma sp_irqst p q : same_program p q -> pk_irqst q = pk_irqst p. Proof. intros H. exact (f_equal pk_irqst (eq_sym H)). Qed.
Lemma sp_init p q : same_program p q -> pk_init q = pk_init p. Proof. intros H. exact (f_equal pk_init (eq_sym H)). Qed.
Lemma sp_div p q : same_program p q -> pk_divCycles q = pk_divCycles p. Proof. intros H. exact (f_equal pk_divCycles (eq_sym H)). Qed.
Lemma sp_poly p q : same_program p q -> pk_polyIndex q = pk_polyIndex p. Proof. intros H. exact (f_equal pk_polyIndex (eq_sym H)). Qed.
Ltac sp_fields H :=
  rewrite ?(sp_audf0 _ _ H), ?(sp_audf1 _ _ H), ?(sp_audf2 _ _ H), ?(sp_audf3 _ _ H), ?(sp_audctl _ _ H), ?(sp_skctl _ _ H), ?(sp_irqst _ _ H), ?(sp_init _ _ H), ?(sp_div _ _ H), ?(sp_poly _ _ H),
    ?(fun i => sp_audf _ _ i H), ?(fun i => sp_audc _ _ i H), ?(fun i => sp_period _ _ i H), ?(fun i => sp_timer _ _ i H).

(* equal changes keep what the program sees equal *)
Definition shows (f : channel -> channel) : Prop := forall a b, silent_channel a = silent_channel b -> silent_channel (f a) = silent_channel (f b).
Lemma sp_upd i f p q : shows f -> same_program p q -> same_program (upd_chan i f p) (upd_chan i f q).
Proof.
  intros F H. unfold same_program. unfold upd_chan, set_chan, chan.
  assert (S : forall k, silent_channel (f (chan p k)) = silent_channel (f (chan q k))) by (intros k; apply F; symmetry; now apply silent_chan).
  pose proof (S 0) as S0. pose proof (S 1) as S1. pose proof (S 2) as S2. pose proof (S 3) as S3.
  change (chan p 0) with (pk_ch0 p) in S0. change (chan q 0) with (pk_ch0 q) in S0. change (chan p 1) with (pk_ch1 p) in S1. change (chan q 1) with (pk_ch1 q) in S1.
  change (chan p 2) with (pk_ch2 p) in S2. change (chan q 2) with (pk_ch2 q) in S2. change (chan p 3) with (pk_ch3 p) in S3. change (chan q 3) with (pk_ch3 q) in S3.
  destruct (i =? 0); [|destruct (i =? 1); [|destruct (i =? 2)]].
  - transitivity (set_pk_ch0 (silent_channel (f (pk_ch0 p))) (silent_pokey p)); [reflexivity|]. rewrite S0, H. reflexivity.
  - transitivity (set_pk_ch1 (silent_channel (f (pk_ch1 p))) (silent_pokey p)); [reflexivity|]. rewrite S1, H. reflexivity.
  - transitivity (set_pk_ch2 (silent_channel (f (pk_ch2 p))) (silent_pokey p)); [reflexivity|]. rewrite S2, H. reflexivity.
  - transitivity (set_pk_ch3 (silent_channel (f (pk_ch3 p))) (silent_pokey p)); [reflexivity|]. rewrite S3, H. reflexivity.
Qed.
Lemma shows_audf v : shows (set_ch_audf v). Proof. intros a b H. exact (f_equal (set_ch_audf v) H). Qed.
Lemma shows_audc v : shows (set_ch_audc v). Proof. intros a b H. exact (f_equal (set_ch_audc v) H). Qed.
Lemma shows_period v : shows (set_period v). Proof. intros a b H. exact (f_equal (set_period v) H). Qed.
Lemma shows_timer v : shows (set_ch_timerCycle v). Proof. intros a b H. exact (f_equal (set_ch_timerCycle v) H). Qed.
Lemma shows_same f : (forall c, silent_channel (f c) = silent_channel c) -> shows f. Proof. intros F a b H. now rewrite !F. Qed.
Lemma shows_mute on m c : shows (set_mute on m c).
Proof. apply shows_same. intros d. unfold set_mute. destruct on; [reflexivity|]. cbv zeta. destruct (_ && _); reflexivity. Qed.
Lemma shows_stimer c : shows (do_stimer c).
Proof. apply shows_same. intros d. unfold do_stimer. destruct (_ =? _); reflexivity. Qed.
Lemma sp_refl p : same_program p p. Proof. reflexivity. Qed.
Lemma sp_r1 v p q : same_program p q -> same_program (set_pk_reloadCycles1 v p) (set_pk_reloadCycles1 v q). Proof. intros H. exact (f_equal (set_pk_reloadCycles1 v) H). Qed.
Lemma sp_r3 v p q : same_program p q -> same_program (set_pk_reloadCycles3 v p) (set_pk_reloadCycles3 v q). Proof. intros H. exact (f_equal (set_pk_reloadCycles3 v) H). Qed.
Lemma sp_sdiv v p q : same_program p q -> same_program (set_pk_divCycles v p) (set_pk_divCycles v q). Proof. intros H. exact (f_equal (set_pk_divCycles v) H). Qed.
Lemma sp_saudctl v p q : same_program p q -> same_program (set_pk_audctl v p) (set_pk_audctl v q). Proof. intros H. exact (f_equal (set_pk_audctl v) H). Qed.
Lemma sp_sskctl v p q : same_program p q -> same_program (set_pk_skctl v p) (set_pk_skctl v q). Proof. intros H. exact (f_equal (set_pk_skctl v) H). Qed.
Lemma sp_sirqst v p q : same_program p q -> same_program (set_pk_irqst v p) (set_pk_irqst v q). Proof. intros H. exact (f_equal (set_pk_irqst v) H). Qed.
Lemma sp_sinit v p q : same_program p q -> same_program (set_pk_init v p) (set_pk_init v q). Proof. intros H. exact (f_equal (set_pk_init v) H). Qed.
Lemma sp_spoly v p q : same_program p q -> same_program (set_pk_polyIndex v p) (set_pk_polyIndex v q). Proof. intros H. exact (f_equal (set_pk_polyIndex v) H). Qed.
#[local] Hint Resolve sp_refl sp_upd sp_r1 sp_r3 sp_sdiv sp_saudctl sp_sskctl sp_sirqst sp_sinit sp_spoly shows_audf shows_audc shows_period shows_timer shows_mute shows_stimer : shows.
Ltac shows := auto 20 with shows.
Lemma sp_init_mute c p q : same_program p q -> same_program (init_mute c p) (init_mute c q).
Proof. intros H. unfold init_mute. cbv zeta. sp_fields H. shows. Qed.
#[local] Hint Resolve sp_init_mute : shows.
Lemma sp_generate pp pp' c p q : same_program p q -> sim same_program (generate_until pp c p) (generate_until pp' c q).
Proof.
  intros H. pose proof (generate_unheard pp c p) as A. pose proof (generate_unheard pp' c q) as B. destruct (generate_until pp c p), (generate_until pp' c q); cbn [sim]; try exact I.
  cbn [unheard] in A, B. unfold same_program in *. congruence.
Qed.
Ltac sp_gen H p q := repeat match goal with E : _ = true |- _ => clear E | E : _ = false |- _ => clear E end; eapply sim_bind; [apply sp_generate; exact H|]; clear p q H; intros p q H.
Ltac sp_audf_tac H p q H1 p1 q1 :=
  intros H; cbv zeta; sp_fields H; match goal with |- sim _ (if ?b then _ else _) _ => destruct b end; [exact H|]; sp_gen H p q;
  match goal with |- context [upd_chan ?i (set_ch_audf ?d) p] =>
    assert (H1 : same_program (upd_chan i (set_ch_audf d) p) (upd_chan i (set_ch_audf d) q)) by shows; set (p1 := upd_chan i (set_ch_audf d) p) in *; set (q1 := upd_chan i (set_ch_audf d) q) in *; clearbody p1 q1 end;
  sp_fields H1; zcases; cbn [sim]; shows.
Lemma sp_pokef0 pp pp' d c p q : same_program p q -> sim same_program (poke_audf0 d c pp p) (poke_audf0 d c pp' q).
Proof. unfold poke_audf0. sp_audf_tac H p q H1 p1 q1. Qed.
Lemma sp_pokef1 pp pp' d c p q : same_program p q -> sim same_program (poke_audf1 d c pp p) (poke_audf1 d c pp' q).
Proof. unfold poke_audf1. sp_audf_tac H p q H1 p1 q1. Qed.
Lemma sp_pokef2 pp pp' d c p q : same_program p q -> sim same_program (poke_audf2 d c pp p) (poke_audf2 d c pp' q).
Proof. unfold poke_audf2. sp_audf_tac H p q H1 p1 q1. Qed.
Lemma sp_pokef3 pp pp' d c p q : same_program p q -> sim same_program (poke_audf3 d c pp p) (poke_audf3 d c pp' q).
Proof. unfold poke_audf3. sp_audf_tac H p q H1 p1 q1. Qed.
Lemma sp_pokectl pp pp' d c p q : same_program p q -> sim same_program (poke_audctl d c pp p) (poke_audctl d c pp' q).
Proof.
  intros H. unfold poke_audctl. cbv zeta. sp_fields H. destruct (_ =? _); [exact H|]. sp_gen H p q.
  eapply sim_bind.
  { instantiate (1 := same_program). assert (H1 : same_program (set_pk_divCycles (if negb (Z.land d 1 =? 0) then 114 else 28) (set_pk_audctl d p)) (set_pk_divCycles (if negb (Z.land d 1 =? 0) then 114 else 28) (set_pk_audctl d q))) by shows.
    revert H1. generalize (set_pk_divCycles (if negb (Z.land d 1 =? 0) then 114 else 28) (set_pk_audctl d p)), (set_pk_divCycles (if negb (Z.land d 1 =? 0) then 114 else 28) (set_pk_audctl d q)).
    intros x y K. unfold audctl_pair0. cbv zeta. sp_fields K. zcases; cbn [sim]; shows. }
  clear p q H. intros p q H. eapply sim_bind.
  { instantiate (1 := same_program). unfold audctl_pair2. cbv zeta. sp_fields H. zcases; cbn [sim]; shows. }
  clear p q H. intros p q H. cbn [sim]. shows.
Qed.
Lemma sp_pokesk pp pp' d c p q : same_program p q -> sim same_program (poke_skctl d c pp p) (poke_skctl d c pp' q).
Proof.
  intros H. unfold poke_skctl. cbv zeta. sp_fields H. destruct (_ =? _); [exact H|]. sp_gen H p q.
  assert (H1 : same_program (set_pk_skctl d p) (set_pk_skctl d q)) by shows. set (p1 := set_pk_skctl d p) in *. set (q1 := set_pk_skctl d q) in *. clearbody p1 q1. sp_fields H1.
  cbn [sim]. destruct (_ && _); shows.
Qed.
Lemma sp_sum v p : silent_pokey (set_pk_sumDACInputs v p) = silent_pokey p. Proof. reflexivity. Qed.
Lemma set_audc_unheard pp i d c p : ch_audc (chan p i) <> d -> unheard (upd_chan i (set_ch_audc d) p) (set_audc pp i d c p).
Proof.
  intros N. unfold set_audc. destruct (_ =? _) eqn:E; [apply Z.eqb_eq in E; congruence|]. pose proof (generate_unheard pp c p) as G. destruct (generate_until pp c p) as [p0| | |]; cbn [bind]; try exact I. cbn [unheard] in G. cbv zeta.
  assert (H1 : silent_pokey (upd_chan i (set_ch_audc d) p0) = silent_pokey (upd_chan i (set_ch_audc d) p)) by (apply sp_upd; [apply shows_audc|exact G]).
  set (p1 := upd_chan i (set_ch_audc d) p0) in *. set (x := upd_chan i (set_ch_audc d) p) in *. clearbody p1 x.
  destruct (negb _).
  - apply unheard_bind; [destruct (negb _); [exact H1|eapply unheard_eq; [exact H1|apply add_delta_unheard]]|]. intros r R. cbn [unheard]. rewrite silent_id by reflexivity. exact R.
  - destruct (0 <? _).
    + apply unheard_bind; [destruct (negb _); [exact H1|eapply unheard_eq; [exact H1|apply add_delta_unheard]]|]. intros r R. cbn [unheard]. rewrite silent_id by reflexivity. exact R.
    + cbn [unheard]. rewrite silent_id by reflexivity. exact H1.
Qed.
Lemma sp_pokec pp pp' i d c p q : same_program p q -> sim same_program (set_audc pp i d c p) (set_audc pp' i d c q).
Proof.
  intros H. pose proof (sp_audc p q i H) as A. destruct (Z.eq_dec (ch_audc (chan p i)) d) as [E|N].
  - unfold set_audc. rewrite A, E, Z.eqb_refl. exact H.
  - pose proof (set_audc_unheard pp i d c p N) as U. rewrite <- A in N. pose proof (set_audc_unheard pp' i d c q N) as V.
    destruct (set_audc pp i d c p), (set_audc pp' i d c q); cbn [sim]; try exact I. cbn [unheard] in U, V. unfold same_program. rewrite U, V. apply sp_upd; [apply shows_audc|exact H].
Qed.
Definition same_both (x y : Z * pokey) : Prop := fst y = fst x /\ same_program (snd x) (snd y).
Lemma sp_plain m m' : sim same_program m m' -> sim same_both (plain m) (plain m').
Proof. intros H. unfold plain. eapply sim_bind; [exact H|]. intros a b K. split; [reflexivity|exact K]. Qed.
Lemma sp_irqen_off d c i x y : 0 <= i -> Z.land d (i + 1) = 0 -> same_both x y -> sim same_both (irqen_channel d c i x) (irqen_channel d c i y).
Proof.
  destruct x as [n p], y as [n' q]. intros Hi Hd [E H]. cbn [fst snd] in E, H. subst n'. unfold irqen_channel. cbv zeta.
  assert (Z0 : forall k, Z.land (Z.land d k) (i + 1) = 0) by (intros k; rewrite <- Z.land_assoc, (Z.land_comm k), Z.land_assoc, Hd; reflexivity).
  rewrite !Z0. cbn [Z.eqb negb]. split; [reflexivity|cbn [snd]; shows].
Qed.
Lemma sp_poke pp pp' a d c p q : Z.land a 15 <> 14 \/ Z.land d 7 = 0 -> same_program p q -> sim same_both (pokey_poke pp a d c p) (pokey_poke pp' a d c q).
Proof.
  intros N H. unfold pokey_poke. generalize dependent (Z.land a 15). intros k N.
  destruct (Z.eq_dec k 14) as [->|K].
  - destruct N as [N|D]; [congruence|].
    assert (B : forall j, 0 <= j < 8 -> Z.land d j = 0).
    { intros j Hj. assert (Z.land 7 j = j) as <- by (assert (j=0\/j=1\/j=2\/j=3\/j=4\/j=5\/j=6\/j=7) as [->|[->|[->|[->|[->|[->|[->| ->]]]]]]] by lia; reflexivity). now rewrite Z.land_assoc, D. }
    unfold poke_irqen. cbv zeta. sp_fields H.
    eapply sim_bind; [apply sp_irqen_off; [lia|apply B; lia|split; [reflexivity|cbn [snd]; shows]]|]. intros x y X.
    eapply sim_bind; [apply sp_irqen_off; [lia|apply B; lia|exact X]|]. intros x' y' X'. apply sp_irqen_off; [lia|apply B; lia|exact X'].
  - clear N.
    zcases; try congruence; first [apply sp_plain; first [now apply sp_pokec | now apply sp_pokef0 | now apply sp_pokef1 | now apply sp_pokef2 | now apply sp_pokef3 | now apply sp_pokectl | now apply sp_pokesk]
                | split; [reflexivity|cbn [snd]; unfold for_channels; shows]].
Qed.
Lemma poke_same_program pp pp' a d c p q t1 p1 t2 q1 : Z.land a 15 <> 14 \/ Z.land d 7 = 0 -> same_program p q ->
  pokey_poke pp a d c p = Ok (t1, p1) -> pokey_poke pp' a d c q = Ok (t2, q1) -> t1 = t2 /\ same_program p1 q1.
Proof. intros N H E F. pose proof (sp_poke pp pp' a d c p q N H) as K. rewrite E, F in K. destruct K as [A B]. split; [symmetry; exact A|exact B]. Qed.
Lemma end_frame_same_program pp pp' c p q p1 q1 : same_program p q -> pokey_end_frame pp c p = Ok p1 -> pokey_end_frame pp' c q = Ok q1 -> same_program p1 q1.
Proof.
  intros H E F. assert (K : sim same_program (pokey_end_frame pp c p) (pokey_end_frame pp' c q)).
  { unfold pokey_end_frame. cbv zeta. clear E F. sp_gen H p q. sp_fields H. cbn [sim]. unfold for_channels.
    assert (S : shows (fun c0 => if ch_tickCycle c0 =? never then c0 else set_ch_tickCycle (ch_tickCycle c0 - c) c0)) by (apply shows_same; intros x; destruct (_ =? _); reflexivity). shows. }
  rewrite E, F in K. exact K.
Qed.
Lemma check_timer_sp c i x y : same_both x y -> same_both (check_timer c i x) (check_timer c i y).
Proof.
  destruct x as [n p], y as [n' q]. intros [E H]. cbn [fst snd] in E, H. subst n'. unfold check_timer. cbv zeta. sp_fields H.
  destruct (_ <=? c); split; cbn [fst snd]; shows.
Qed.
Lemma check_irq_same_program c n p q : same_program p q ->
  fst (pokey_check_irq c n p) = fst (pokey_check_irq c n q) /\ same_program (snd (pokey_check_irq c n p)) (snd (pokey_check_irq c n q)).
Proof.
  intros H. assert (K : same_both (pokey_check_irq c n p) (pokey_check_irq c n q)). { unfold pokey_check_irq. repeat apply check_timer_sp. split; [reflexivity|exact H]. }
  destruct K as [A B]. split; [symmetry; exact A|exact B].
Qed.
Lemma peek_same_program a c pp pp' : pp_extraPokeyMask pp = pp_extraPokeyMask pp' -> same_program (pp_basePokey pp) (pp_basePokey pp') -> same_program (pp_extraPokey pp) (pp_extraPokey pp') ->
  pair_peek a c pp = pair_peek a c pp'.
Proof.
  intros M H1 H2. unfold pair_peek. cbv zeta. rewrite M. destruct (negb _); [sp_fields H2|sp_fields H1]; reflexivity.
Qed.
Lemma mute_same_program m p : same_program (pokey_mute m p) p.
Proof.
  unfold same_program, pokey_mute. cbv zeta.
  assert (S : forall on k c x, silent_channel (set_mute on k c x) = silent_channel x) by (intros on k c x; unfold set_mute; destruct on; [reflexivity|]; cbv zeta; destruct (_ && _); reflexivity).
  rewrite !silent_id by (intros; apply S). reflexivity.
Qed.
