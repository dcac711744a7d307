(* POKEY: what every register write, tick and frame preserves *)
From Verif Require Import Base BaseFacts Loop InfoProofs PokeyModel.

(* ---- invariants ---- *)
Record chan_ok (c : channel) : Prop := mkChanOk {
  co_audf : byte (ch_audf c);
  co_audc : byte (ch_audc c);
  co_period : 1 <= ch_periodCycles c;
  co_tick : 0 <= ch_tickCycle c;
  co_out : ch_out c = 0 \/ ch_out c = 1
}.

Record pokey_ok (p : pokey) : Prop := mkPokeyOk {
  po_ch0 : chan_ok (pk_ch0 p);
  po_ch1 : chan_ok (pk_ch1 p);
  po_ch2 : chan_ok (pk_ch2 p);
  po_ch3 : chan_ok (pk_ch3 p);
  po_audctl : byte (pk_audctl p);
  po_skctl : byte (pk_skctl p);
  po_irqst : byte (pk_irqst p);
  po_div : pk_divCycles p = 28 \/ pk_divCycles p = 114;
  po_reload1 : 1 <= pk_reloadCycles1 p;
  po_reload3 : 1 <= pk_reloadCycles3 p;
  po_poly : 131072 <= pk_polyIndex p
}.

(* the channel is not muted by the user *)
Definition audible (c : channel) : Prop := Z.testbit (ch_mute c) 1 = false.
(* |delta| is the volume *)
Definition volume_ok (c : channel) : Prop := Z.abs (ch_delta c) = Z.land (ch_audc c) 15.
Definition level (c : channel) : Z := Z.max 0 (ch_delta c).

Record mixed (p : pokey) : Prop := mkMixed {
  mx_0 : audible (pk_ch0 p) /\ volume_ok (pk_ch0 p);
  mx_1 : audible (pk_ch1 p) /\ volume_ok (pk_ch1 p);
  mx_2 : audible (pk_ch2 p) /\ volume_ok (pk_ch2 p);
  mx_3 : audible (pk_ch3 p) /\ volume_ok (pk_ch3 p);
  mx_sum : pk_sumDACInputs p = level (pk_ch0 p) + level (pk_ch1 p) + level (pk_ch2 p) + level (pk_ch3 p)
}.

Lemma volume_range v : 0 <= Z.land v 15 <= 15.
Proof. assert (E : Z.land v 15 = v mod 16) by (apply (Z.land_ones v 4); lia). rewrite E. lia. Qed.

Lemma mixed_range p : mixed p -> 0 <= pk_sumDACInputs p <= 60.
Proof.
  intros [[_ H0] [_ H1] [_ H2] [_ H3] ->]. unfold volume_ok, level in *.
  pose proof (volume_range (ch_audc (pk_ch0 p))). pose proof (volume_range (ch_audc (pk_ch1 p))).
  pose proof (volume_range (ch_audc (pk_ch2 p))). pose proof (volume_range (ch_audc (pk_ch3 p))). lia.
Qed.

Ltac pkproj := cbn [pk_ch0 pk_ch1 pk_ch2 pk_ch3 pk_audctl pk_skctl pk_irqst pk_init pk_divCycles pk_reloadCycles1 pk_reloadCycles3
  pk_polyIndex pk_deltaBuffer pk_sumDACInputs pk_sumDACOutputs pk_iirRate pk_iirAcc pk_trailing
  set_pk_ch0 set_pk_ch1 set_pk_ch2 set_pk_ch3 set_pk_audctl set_pk_skctl set_pk_irqst set_pk_init set_pk_divCycles set_pk_reloadCycles1
  set_pk_reloadCycles3 set_pk_polyIndex set_pk_deltaBuffer set_pk_sumDACInputs set_pk_sumDACOutputs set_pk_iirRate set_pk_iirAcc set_pk_trailing
  ch_audf ch_audc ch_periodCycles ch_tickCycle ch_timerCycle ch_mute ch_out ch_delta
  set_ch_audf set_ch_audc set_ch_periodCycles set_ch_tickCycle set_ch_timerCycle set_ch_mute set_ch_out set_ch_delta
  upd_chan chan set_chan Z.eqb Pos.eqb set_period] in *.

(* ---- audio output ---- *)
Section Output.
Variable B : ub_reason -> Prop.
Variable F : Prop.
Hypothesis HO : B UbOverflow.

(* the buffer has room for a delta at this cycle, whatever the fractional part of the first sample *)
Definition room (pp : pokeyPair) (cycle n : Z) : Prop :=
  0 <= pp_sampleFactor pp /\ 0 <= pp_sampleOffset pp < 262144 /\ 0 <= cycle /\
  (cycle * pp_sampleFactor pp + 262143) / 262144 + 32 <= n.

Lemma room_mono pp c c' n : room pp c n -> 0 <= c' <= c -> room pp c' n.
Proof.
  intros (H1 & H2 & H3 & H4) H. repeat split; try apply H2; try assumption; [lia|]. etransitivity; [|exact H4].
  apply Z.add_le_mono_r, Z.div_le_mono; [lia|]. nia.
Qed.

(* accesses are in bounds, or we do not care *)
Definition safe (P : Prop) : Prop := B UbRead \/ P.
Definition safe_write (P : Prop) : Prop := B UbWrite \/ P.

Lemma wpg_get_safe l i (P : Z -> Prop) : (0 <= i < len l -> P (at_ l i)) -> safe (0 <= i < len l) -> wpg B F (get l i) P.
Proof. intros H1 H2. apply wpg_get; [exact H1|]. destruct H2 as [H2|H2]; auto. Qed.

Lemma wpg_update l i (P : Z -> Prop) : (0 <= i < len l -> P (at_ l i)) -> safe_write (0 <= i < len l) -> wpg B F (get_for_update l i) P.
Proof.
  intros H1 H2. unfold get_for_update. assert (D : 0 <= i < len l \/ ~ (0 <= i < len l)) by lia. destruct D as [G|G].
  - rewrite get_ok by exact G. cbn [wpg]. auto.
  - rewrite get_ub by exact G. cbn [wpg]. destruct H2 as [H2|H2]; [exact H2|]. now contradict H2.
Qed.

Lemma wpg_set_in (l : list Z) i v (P : list Z -> Prop) : 0 <= i < len l -> P (upd l (Z.to_nat i) v) -> wpg B F (set_nth l i v) P.
Proof. intros H1 H2. unfold set_nth. destruct ((i <? 0) || (len l <=? i)) eqn:E; cbn [wpg]; [lia|exact H2]. Qed.

Lemma wpg_chk' v (P : Z -> Prop) : (int_min <= v <= int_max -> P v) -> wpg B F (chk v) P.
Proof. intros H. apply wpg_chk; auto. Qed.

Lemma len_upd {A} (l : list A) i v : len (upd l i v) = len l.
Proof. unfold len. f_equal. revert i. induction l; intros []; cbn; auto. Qed.

Lemma add_sinc_ok n : forall j row delta buf i,
  safe_write (0 <= i + j /\ i + j + Z.of_nat n <= len buf) ->
  wpg B F (add_sinc n j row delta buf i) (fun b => len b = len buf).
Proof.
  induction n as [|n IH]; intros j row delta buf i H; cbn [add_sinc]; [reflexivity|].
  apply wpg_bind, wpg_update; [intros G|destruct H as [H|H]; [left; exact H|right; lia]].
  apply wpg_bind, wpg_chk'. intros C.
  apply wpg_bind, wpg_set_in; [exact G|].
  eapply wpg_mono; [apply IH|].
  - destruct H as [H|H]; [left; exact H|right]. rewrite len_upd. lia.
  - intros b E. rewrite E. apply len_upd.
Qed.

Lemma add_external_delta_ok pp cycle delta p :
  safe_write (room pp cycle (len (pk_deltaBuffer p))) ->
  wpg B F (add_external_delta pp cycle delta p)
    (fun p' => exists b, len b = len (pk_deltaBuffer p) /\ p' = set_pk_deltaBuffer b p).
Proof.
  intros H. unfold add_external_delta. destruct (delta =? 0).
  - cbn [wpg]. exists (pk_deltaBuffer p). split; [reflexivity|]. now destruct p.
  - apply wpg_bind, wpg_chk'. intros C. apply wpg_bind. eapply wpg_mono; [apply add_sinc_ok|].
    + destruct H as [H|(H1 & H2 & H3 & H4)]; [left; exact H|right]. rewrite Z.shiftr_div_pow2 by lia. change (2 ^ 18) with 262144. change (Z.of_nat 32) with 32.
      assert (L : (cycle * pp_sampleFactor pp + pp_sampleOffset pp) / 262144 <= (cycle * pp_sampleFactor pp + 262143) / 262144) by (apply Z.div_le_mono; lia).
      split; [|lia]. rewrite Z.add_0_r. apply Z.div_pos; nia.
    + intros b E. cbn [wpg]. now exists b.
Qed.

(* what adding a delta does to the rest of the chip: nothing *)
Definition mixes (d : Z) (p p' : pokey) : Prop :=
  exists b o, len b = len (pk_deltaBuffer p) /\
    p' = set_pk_sumDACOutputs o (set_pk_deltaBuffer b (set_pk_sumDACInputs (pk_sumDACInputs p + d) p)).

Lemma add_delta_ok pp cycle delta p :
  safe_write (room pp cycle (len (pk_deltaBuffer p))) -> safe (0 <= pk_sumDACInputs p + delta <= 60) ->
  wpg B F (add_delta pp cycle delta p) (mixes delta p).
Proof.
  intros HW H. unfold add_delta. cbv zeta. apply wpg_bind, wpg_get_safe.
  - intros G. apply wpg_bind, wpg_chk'. intros C. apply wpg_bind. eapply wpg_mono; [apply add_external_delta_ok|].
    + exact HW.
    + intros p' (b & L & ->). cbn [wpg]. exists b. eexists. split; [exact L|]. reflexivity.
  - destruct H as [H|H]; [left; exact H|right]. pkproj. change (len compressed_sums) with 61. lia.
Qed.

(* [p'] is [p] with channel [i] inverted *)
Definition inverts (i : Z) (p p' : pokey) : Prop :=
  mixes (- ch_delta (chan p i)) (upd_chan i (fun c => set_ch_delta (- ch_delta c) c) p) p'.

Definition channel_index (i : Z) : Prop := i = 0 \/ i = 1 \/ i = 2 \/ i = 3.

Ltac channels H := destruct H as [H | [H | [H | H]]]; try subst.

Lemma mixed_chan i p : channel_index i -> mixed p -> 0 <= pk_sumDACInputs p - ch_delta (chan p i) <= 60.
Proof.
  intros Hi [[_ H0] [_ H1] [_ H2] [_ H3] Hs]. unfold volume_ok, level in *.
  pose proof (volume_range (ch_audc (pk_ch0 p))). pose proof (volume_range (ch_audc (pk_ch1 p))).
  pose proof (volume_range (ch_audc (pk_ch2 p))). pose proof (volume_range (ch_audc (pk_ch3 p))).
  channels Hi; pkproj; lia.
Qed.

Lemma slope_ok pp i cycle p :
  channel_index i -> safe_write (room pp cycle (len (pk_deltaBuffer p))) -> safe (mixed p) ->
  wpg B F (slope pp i cycle p) (inverts i p).
Proof.
  intros Hi HW H. unfold slope. cbv zeta.
  assert (E : ch_delta (chan (upd_chan i (fun c => set_ch_delta (- ch_delta c) c) p) i) = - ch_delta (chan p i)) by
    (channels Hi; reflexivity).
  rewrite E. apply add_delta_ok.
  - assert (E1 : pk_deltaBuffer (upd_chan i (fun c => set_ch_delta (- ch_delta c) c) p) = pk_deltaBuffer p) by (channels Hi; reflexivity).
    rewrite E1. exact HW.
  - destruct H as [H|H2]; [left; exact H|right]. pose proof (mixed_chan i p Hi H2) as M.
    assert (E2 : pk_sumDACInputs (upd_chan i (fun c => set_ch_delta (- ch_delta c) c) p) = pk_sumDACInputs p) by (channels Hi; reflexivity).
    rewrite E2. lia.
Qed.

Lemma inverts_pokey_ok i p p' : channel_index i -> inverts i p p' -> pokey_ok p -> pokey_ok p'.
Proof.
  intros Hi (b & o & L & ->) H. destruct H as [[] [] [] []]. channels Hi; constructor; pkproj; try assumption; constructor; assumption.
Qed.

Lemma inverts_mixed i p p' : channel_index i -> inverts i p p' -> mixed p -> mixed p'.
Proof.
  intros Hi (b & o & L & ->) [[A0 V0] [A1 V1] [A2 V2] [A3 V3] S]. unfold volume_ok, level, audible in *.
  channels Hi; constructor; unfold volume_ok, level, audible; pkproj; try (split; [assumption|]); try assumption; lia.
Qed.

(* ---- ticks ---- *)
(* everything the output generator leaves alone *)
Definition same_chan (c c' : channel) : Prop :=
  ch_audf c' = ch_audf c /\ ch_audc c' = ch_audc c /\ ch_periodCycles c' = ch_periodCycles c /\
  ch_timerCycle c' = ch_timerCycle c /\ ch_mute c' = ch_mute c.
Record same_regs (p p' : pokey) : Prop := mkSameRegs {
  sr_0 : same_chan (pk_ch0 p) (pk_ch0 p');
  sr_1 : same_chan (pk_ch1 p) (pk_ch1 p');
  sr_2 : same_chan (pk_ch2 p) (pk_ch2 p');
  sr_3 : same_chan (pk_ch3 p) (pk_ch3 p');
  sr_regs : pk_audctl p' = pk_audctl p /\ pk_skctl p' = pk_skctl p /\ pk_irqst p' = pk_irqst p /\ pk_init p' = pk_init p /\
            pk_divCycles p' = pk_divCycles p /\ pk_reloadCycles1 p' = pk_reloadCycles1 p /\ pk_reloadCycles3 p' = pk_reloadCycles3 p /\
            pk_polyIndex p' = pk_polyIndex p /\ pk_iirRate p' = pk_iirRate p /\ pk_iirAcc p' = pk_iirAcc p /\ pk_trailing p' = pk_trailing p;
  sr_len : len (pk_deltaBuffer p') = len (pk_deltaBuffer p)
}.

Lemma same_chan_refl c : same_chan c c.
Proof. repeat split. Qed.
Lemma same_chan_trans a b c : same_chan a b -> same_chan b c -> same_chan a c.
Proof. unfold same_chan. intuition congruence. Qed.
Lemma same_regs_refl p : same_regs p p.
Proof. constructor; repeat split. Qed.
Lemma same_regs_trans a b c : same_regs a b -> same_regs b c -> same_regs a c.
Proof.
  intros [A0 A1 A2 A3 A4 A5] [B0 B1 B2 B3 B4 B5].
  constructor; try (eapply same_chan_trans; eassumption); [intuition congruence|congruence].
Qed.

Definition tick (p : pokey) (i : Z) : Z := ch_tickCycle (chan p i).
Definition period (p : pokey) (i : Z) : Z := ch_periodCycles (chan p i).

Lemma inverts_same i p p' : channel_index i -> inverts i p p' -> same_regs p p' /\ forall j, channel_index j -> tick p' j = tick p j.
Proof.
  intros Hi (b & o & L & ->). split.
  - channels Hi; constructor; repeat split; exact L.
  - intros j Hj. unfold tick. channels Hi; channels Hj; reflexivity.
Qed.

(* a fact about stereo, the sampling step, the size of the buffer and the number of samples already used *)
Definition rates (pp : pokeyPair) : Z * Z := (pp_extraPokeyMask pp, pp_sampleFactor pp).
Variable Sz : Z * Z -> Z -> Z -> Prop.
Definition sized (pp : pokeyPair) (p : pokey) : Prop := Sz (rates pp) (len (pk_deltaBuffer p)) (pk_trailing p).
Lemma sized_same pp p p' : same_regs p p' -> sized pp p -> sized pp p'.
Proof. intros [_ _ _ _ (_ & _ & _ & _ & _ & _ & _ & _ & _ & _ & E) L]. unfold sized. now rewrite E, L. Qed.

(* the state between two steps of the generator *)
Record live (pp : pokeyPair) (limit : Z) (p : pokey) : Prop := mkLive {
  lv_ok : pokey_ok p;
  lv_room : safe_write (room pp limit (len (pk_deltaBuffer p)));
  lv_mixed : safe (mixed p);
  lv_size : sized pp p
}.

Lemma get_byte_table l i (P : Z -> Prop) : bytes l -> 0 <= i < len l -> (forall v, byte v -> P v) -> wpg B F (get l i) P.
Proof. clear Sz. intros H L HP. apply wpg_get; [|left; lia]. intros G. apply HP. now apply at_byte. Qed.

Lemma poly9_bytes : bytes poly9Lookup.
Proof. apply bytesb_spec. vm_compute. reflexivity. Qed.
Lemma poly9_len : len poly9Lookup = 511.
Proof. vm_compute. reflexivity. Qed.
Lemma poly17_bytes : bytes poly17Lookup.
Proof. apply bytesb_spec. vm_compute. reflexivity. Qed.
Lemma poly17_len : len poly17Lookup = 16385.
Proof. vm_compute. reflexivity. Qed.

Definition same_ticks (p p' : pokey) : Prop := forall j, channel_index j -> tick p' j = tick p j.

Lemma live_mono pp c c' p : live pp c p -> 0 <= c' <= c -> live pp c' p.
Proof.
  intros [H1 H2 H3 H4] H. constructor; [exact H1| |exact H3|exact H4]. destruct H2 as [H2|H2]; [left; exact H2|right].
  now apply room_mono with c.
Qed.

Lemma set_tick_ok ch t p pp limit : channel_index ch -> 0 <= t -> live pp limit p ->
  let p' := set_chan ch (set_ch_tickCycle t (chan p ch)) p in
  live pp limit p' /\ same_regs p p' /\ tick p' ch = t /\ forall j, channel_index j -> j <> ch -> tick p' j = tick p j.
Proof.
  intros Hi Ht [[K0 K1 K2 K3] W M Z]. cbv zeta. split; [|split; [|split]].
  - constructor.
    + destruct K0, K1, K2, K3. channels Hi; constructor; pkproj; try assumption; constructor; assumption.
    + channels Hi; exact W.
    + destruct M as [M|[A0 A1 A2 A3 S]]; [left; exact M|right].
      unfold audible, volume_ok, level in *. channels Hi; constructor; unfold audible, volume_ok, level; pkproj; assumption.
    + channels Hi; exact Z.
  - channels Hi; constructor; repeat split. 
  - unfold tick. channels Hi; reflexivity.
  - intros j Hj N. unfold tick. channels Hi; channels Hj; try reflexivity; exfalso; apply N; reflexivity.
Qed.

Lemma set_out_ok ch v p pp limit : channel_index ch -> v = 0 \/ v = 1 -> live pp limit p ->
  let p' := set_chan ch (set_ch_out v (chan p ch)) p in
  live pp limit p' /\ same_regs p p' /\ same_ticks p p'.
Proof.
  intros Hi Ht [[K0 K1 K2 K3] W M Z]. cbv zeta. split; [|split].
  - constructor.
    + destruct K0, K1, K2, K3. channels Hi; constructor; pkproj; try assumption; constructor; assumption.
    + channels Hi; exact W.
    + destruct M as [M|[A0 A1 A2 A3 S]]; [left; exact M|right].
      unfold audible, volume_ok, level in *. channels Hi; constructor; unfold audible, volume_ok, level; pkproj; assumption.
    + channels Hi; exact Z.
  - channels Hi; constructor; repeat split. 
  - intros j Hj. unfold tick. channels Hi; channels Hj; reflexivity.
Qed.

Lemma slope_live pp ch cycle p : channel_index ch -> live pp cycle p ->
  wpg B F (slope pp ch cycle p) (fun p' => live pp cycle p' /\ same_regs p p' /\ same_ticks p p').
Proof.
  intros Hi [K W M Z]. eapply wpg_mono; [apply slope_ok; [exact Hi| |]|].
  - exact W.
  - exact M.
  - intros p' I. destruct (inverts_same ch p p' Hi I) as [S T]. split; [|split; [exact S|exact T]].
    constructor; [now apply (inverts_pokey_ok ch p p')|rewrite (sr_len _ _ S); exact W| |now apply sized_same with p].
    destruct M as [M|M2]; [left; exact M|right]. now apply (inverts_mixed ch p p').
Qed.

Lemma live_tick pp limit p i : channel_index i -> live pp limit p -> 0 <= tick p i.
Proof. intros Hi [[[] [] [] []] _ _ _]. unfold tick. channels Hi; assumption. Qed.
Lemma live_period pp limit p i : channel_index i -> live pp limit p -> 1 <= period p i.
Proof. intros Hi [[[] [] [] []] _ _ _]. unfold period. channels Hi; assumption. Qed.
Lemma live_out pp limit p i : channel_index i -> live pp limit p -> ch_out (chan p i) = 0 \/ ch_out (chan p i) = 1.
Proof. intros Hi [[[] [] [] []] _ _ _]. channels Hi; assumption. Qed.

(* channel [ch] ticked *)
Definition ticked (ch : Z) (p p' : pokey) : Prop :=
  same_regs p p' /\ tick p' ch = tick p ch + period p ch /\ forall j, channel_index j -> j <> ch -> tick p' j = tick p j.

Lemma do_tick_ok pp ch cycle p : channel_index ch -> 0 <= cycle -> live pp cycle p ->
  wpg B F (do_tick pp ch cycle p) (fun p' => live pp cycle p' /\ ticked ch p p').
Proof.
  intros Hi Hc L. unfold do_tick. cbv zeta. unfold upd_chan.
  pose proof (live_tick _ _ _ ch Hi L) as Ht. pose proof (live_period _ _ _ ch Hi L) as Hp. unfold tick, period in Ht, Hp.
  pose proof (set_tick_ok ch (ch_tickCycle (chan p ch) + ch_periodCycles (chan p ch)) p pp cycle Hi ltac:(lia) L) as S1. cbv zeta in S1.
  set (p1 := set_chan ch (set_ch_tickCycle (ch_tickCycle (chan p ch) + ch_periodCycles (chan p ch)) (chan p ch)) p) in *.
  destruct S1 as (L1 & R1 & T1 & U1).
  assert (Done : forall p', live pp cycle p' -> same_regs p1 p' -> same_ticks p1 p' -> live pp cycle p' /\ ticked ch p p').
  { intros p' L' R' T'. split; [exact L'|]. split; [now apply same_regs_trans with p1|]. split.
    - rewrite T' by exact Hi. exact T1.
    - intros j Hj N. rewrite T' by exact Hj. now apply U1. }
  assert (Flip : forall v, v = 0 \/ v = 1 ->
     wpg B F (slope pp ch cycle (set_chan ch (set_ch_out v (chan p1 ch)) p1)) (fun p' => live pp cycle p' /\ ticked ch p p')).
  { intros v Hv. destruct (set_out_ok ch v p1 pp cycle Hi Hv L1) as (L2 & R2 & T2).
    eapply wpg_mono; [apply slope_live; [exact Hi|exact L2]|]. intros p' (L' & R' & T'). apply Done; [exact L'| |].
    - now apply same_regs_trans with (set_chan ch (set_ch_out v (chan p1 ch)) p1).
    - intros j Hj. rewrite T', T2 by exact Hj. reflexivity. }
  pose proof (live_out _ _ _ ch Hi L1) as Ho.
  assert (X : Z.lxor (ch_out (chan p1 ch)) 1 = 0 \/ Z.lxor (ch_out (chan p1 ch)) 1 = 1) by (destruct Ho as [-> | ->]; cbn; auto).
  assert (Same : live pp cycle p1 /\ ticked ch p p1) by (apply Done; [exact L1|apply same_regs_refl|intros j _; reflexivity]).
  assert (Pp : 0 <= cycle + pk_polyIndex p1 - ch).
  { pose proof (po_poly _ (lv_ok _ _ _ L1)). channels Hi; lia. }
  assert (Rem : forall m, 0 < m -> 0 <= Z.rem (cycle + pk_polyIndex p1 - ch) m < m) by (intros m Hm; rewrite Z.rem_mod_nonneg by lia; lia).
  destruct (Z.land (ch_audc (chan p1 ch)) 176 =? 160); [now apply Flip|].
  destruct (negb (Z.land (ch_audc (chan p1 ch)) 16 =? 0) || pk_init p1); [exact Same|].
  apply wpg_bind.
  assert (SC : forall m (P : Z -> Prop), 0 < m -> (forall v, P v) -> wpg B F (shift_count (Z.rem (cycle + pk_polyIndex p1 - ch) m)) P).
  { intros m P Hm HP. unfold shift_count. specialize (Rem m Hm).
    destruct (Z.rem (cycle + pk_polyIndex p1 - ch) m <? 0) eqn:E; [lia|]. apply HP. }
  assert (Rest : forall b : bool, wpg B F (if b then Ok p1 else if negb (Z.land (ch_audc (chan p1 ch)) 32 =? 0)
     then slope pp ch cycle (set_chan ch (set_ch_out (Z.lxor (ch_out (chan p1 ch)) 1) (chan p1 ch)) p1)
     else newOut <- (if negb (Z.land (ch_audc (chan p1 ch)) 64 =? 0) then
                   n <- shift_count (Z.rem (cycle + pk_polyIndex p1 - ch) 15) ;; Ok (Z.shiftr 21360 n)
                 else if pk_audctl p1 <? 128 then
                   v <- get poly17Lookup (Z.shiftr (Z.rem (cycle + pk_polyIndex p1 - ch) 131071) 3) ;;
                   Ok (Z.shiftr v (Z.land (Z.rem (cycle + pk_polyIndex p1 - ch) 131071) 7))
                 else get poly9Lookup (Z.rem (cycle + pk_polyIndex p1 - ch) 511)) ;;
          (if ch_out (chan p1 ch) =? Z.land newOut 1 then Ok p1
           else slope pp ch cycle (set_chan ch (set_ch_out (Z.land newOut 1) (chan p1 ch)) p1)))
     (fun p' => live pp cycle p' /\ ticked ch p p')).
  { intros b. destruct b; [exact Same|]. destruct (negb (Z.land (ch_audc (chan p1 ch)) 32 =? 0)); [now apply Flip|].
    apply wpg_bind.
    assert (Last : forall v, wpg B F (if ch_out (chan p1 ch) =? Z.land v 1 then Ok p1
           else slope pp ch cycle (set_chan ch (set_ch_out (Z.land v 1) (chan p1 ch)) p1)) (fun p' => live pp cycle p' /\ ticked ch p p')).
    { intros v. destruct (ch_out (chan p1 ch) =? Z.land v 1); [exact Same|]. apply Flip.
      assert (E : Z.land v 1 = v mod 2) by (apply (Z.land_ones v 1); lia). rewrite E. lia. }
    destruct (negb (Z.land (ch_audc (chan p1 ch)) 64 =? 0)); [|destruct (pk_audctl p1 <? 128)].
    - apply wpg_bind, SC; [lia|]. intros v. cbn [wpg]. apply Last.
    - apply wpg_bind, get_byte_table; [apply poly17_bytes| |].
      + rewrite poly17_len, Z.shiftr_div_pow2 by lia. change (2 ^ 3) with 8. specialize (Rem 131071 ltac:(lia)). lia.
      + intros v _. cbn [wpg]. apply Last.
    - apply get_byte_table; [apply poly9_bytes| |].
      + rewrite poly9_len. apply Rem. lia.
      + intros v _. apply Last. }
  destruct (ch_audc (chan p1 ch) <? 128).
  - apply wpg_bind, SC; [lia|]. intros v. cbn [wpg]. apply Rest.
  - cbn [wpg]. apply (Rest false).
Qed.

(* a step at an earlier cycle keeps the room at the limit *)
Lemma live_step pp c limit p p' : live pp limit p -> live pp c p' -> same_regs p p' -> live pp limit p'.
Proof.
  intros [_ H1 _ _] [H2 _ H3 H4] S. constructor; [exact H2|rewrite (sr_len _ _ S); exact H1|exact H3|exact H4].
Qed.

(* during an iteration of the generator at [cycle]: no tick lies before it, and ticks only move forward *)
Definition onward (cycle : Z) (p p' : pokey) : Prop :=
  same_regs p p' /\ (forall j, channel_index j -> cycle <= tick p' j) /\
  (forall j, channel_index j -> cycle < tick p j -> cycle < tick p' j).

Lemma onward_refl cycle p : (forall j, channel_index j -> cycle <= tick p j) -> onward cycle p p.
Proof. intros H. split; [apply same_regs_refl|]. split; [exact H|auto]. Qed.
Lemma onward_trans cycle a b c : onward cycle a b -> onward cycle b c -> onward cycle a c.
Proof.
  intros (A1 & A2 & A3) (B1 & B2 & B3). split; [now apply same_regs_trans with b|]. split; [exact B2|auto].
Qed.

Lemma ci0 : channel_index 0. Proof. unfold channel_index; auto. Qed.
Lemma ci1 : channel_index 1. Proof. unfold channel_index; auto. Qed.
Lemma ci2 : channel_index 2. Proof. unfold channel_index; auto. Qed.
Lemma ci3 : channel_index 3. Proof. unfold channel_index; auto. Qed.
Lemma index_dec i j : channel_index i -> channel_index j -> i = j \/ i <> j.
Proof. intros _ _. lia. Qed.

Lemma onward_tick ch cycle p p' : channel_index ch -> (forall j, channel_index j -> cycle <= tick p j) -> 1 <= period p ch -> ticked ch p p' ->
  onward cycle p p' /\ cycle < tick p' ch.
Proof.
  intros Hi H Hp (S & T & U). pose proof (H ch Hi). split; [|lia]. split; [exact S|]. split; intros j Hj.
  - destruct (index_dec j ch Hj Hi) as [-> | N]; [lia|]. rewrite U by assumption. now apply H.
  - intros L. destruct (index_dec j ch Hj Hi) as [-> | N]; [lia|]. rewrite U by assumption. exact L.
Qed.

(* an assignment of a later tick *)
Lemma onward_set ch t cycle limit pp p : channel_index ch -> 0 <= cycle -> cycle < t -> live pp limit p -> (forall j, channel_index j -> cycle <= tick p j) ->
  let p' := set_chan ch (set_ch_tickCycle t (chan p ch)) p in live pp limit p' /\ onward cycle p p'.
Proof.
  intros Hi Hc Ht L H. cbv zeta. destruct (set_tick_ok ch t p pp limit Hi ltac:(lia) L) as (L1 & S1 & T1 & U1).
  split; [exact L1|]. split; [exact S1|]. split; intros j Hj.
  - destruct (index_dec j ch Hj Hi) as [-> | N]; [lia|]. rewrite U1 by assumption. now apply H.
  - intros G. destruct (index_dec j ch Hj Hi) as [-> | N]; [lia|]. rewrite U1 by assumption. exact G.
Qed.

Definition step_post (pp : pokeyPair) (limit cycle ch : Z) (p p' : pokey) : Prop :=
  live pp limit p' /\ onward cycle p p' /\ cycle < tick p' ch.

Lemma do_tick_step pp ch cycle limit p0 p : channel_index ch -> 0 <= cycle <= limit -> live pp limit p -> (forall j, channel_index j -> cycle <= tick p j) ->
  onward cycle p0 p -> wpg B F (do_tick pp ch cycle p) (step_post pp limit cycle ch p0).
Proof.
  intros Hi Hc L H O. eapply wpg_mono; [apply do_tick_ok; [exact Hi|lia|apply live_mono with limit; [exact L|lia]]|].
  intros p' (L' & T'). destruct (onward_tick ch cycle p p' Hi H (live_period _ _ _ ch Hi L) T') as (O' & G').
  split; [|split; [now apply onward_trans with p|exact G']]. apply (live_step pp cycle limit p p' L L'). apply T'.
Qed.

Lemma slope_step pp ch cycle limit p (c : bool) (k : pokey -> outcome pokey) (P : pokey -> Prop) :
  channel_index ch -> 0 <= cycle <= limit -> live pp limit p -> (forall j, channel_index j -> cycle <= tick p j) ->
  (forall p', live pp limit p' -> onward cycle p p' -> wpg B F (k p') P) ->
  wpg B F (p <- (if c then slope pp ch cycle p else Ok p) ;; k p) P.
Proof.
  intros Hi Hc L H K. apply wpg_bind. destruct c.
  - eapply wpg_mono; [apply slope_live; [exact Hi|apply live_mono with limit; [exact L|lia]]|].
    intros p' (L' & S' & T'). apply K; [now apply (live_step pp cycle limit p p')|].
    split; [exact S'|]. split; intros j Hj; rewrite T' by exact Hj; auto.
  - apply K; [exact L|now apply onward_refl].
Qed.

Lemma untouched pp limit cycle ch p : channel_index ch -> live pp limit p -> (forall j, channel_index j -> cycle <= tick p j) ->
  (cycle =? tick p ch) = false -> step_post pp limit cycle ch p p.
Proof. intros Hi L H E. pose proof (H ch Hi). split; [exact L|]. split; [now apply onward_refl|lia]. Qed.

Lemma tick2_ok pp cycle limit p : 0 <= cycle <= limit -> live pp limit p -> (forall j, channel_index j -> cycle <= tick p j) ->
  wpg B F (tick2 pp cycle p) (step_post pp limit cycle 2 p).
Proof.
  intros Hc L H. unfold tick2. change (ch_tickCycle (pk_ch2 p)) with (tick p 2). destruct (cycle =? tick p 2) eqn:E; [|apply untouched; auto using ci2].
  apply slope_step with limit; auto using ci0. intros p' L' O'. apply do_tick_step; auto using ci2. apply O'.
Qed.

Lemma tick3_ok pp cycle limit p : 0 <= cycle <= limit -> live pp limit p -> (forall j, channel_index j -> cycle <= tick p j) ->
  wpg B F (tick3 pp cycle p) (step_post pp limit cycle 3 p).
Proof.
  intros Hc L H. unfold tick3. change (ch_tickCycle (pk_ch3 p)) with (tick p 3). destruct (cycle =? tick p 3) eqn:E; [|apply untouched; auto using ci3].
  set (p1 := if negb (Z.land (pk_audctl p) 8 =? 0) then _ else p).
  assert (X : live pp limit p1 /\ onward cycle p p1).
  { unfold p1. destruct (negb (Z.land (pk_audctl p) 8 =? 0)).
    - apply onward_set; auto using ci2; try lia. pose proof (po_reload3 _ (lv_ok _ _ _ L)). lia.
    - split; [exact L|now apply onward_refl]. }
  destruct X as (L1 & O1). clearbody p1.
  apply slope_step with limit; auto using ci1; [apply O1|]. intros p' L' O'. apply do_tick_step; auto using ci3; [apply O'|].
  now apply onward_trans with p1.
Qed.

Lemma tick0_ok pp cycle limit p : 0 <= cycle <= limit -> live pp limit p -> (forall j, channel_index j -> cycle <= tick p j) ->
  wpg B F (tick0 pp cycle p) (step_post pp limit cycle 0 p).
Proof.
  intros Hc L H. unfold tick0. change (ch_tickCycle (pk_ch0 p)) with (tick p 0). destruct (cycle =? tick p 0) eqn:E; [|apply untouched; auto using ci0].
  set (p1 := if Z.land (pk_skctl p) 136 =? 8 then _ else p).
  assert (X : live pp limit p1 /\ onward cycle p p1).
  { unfold p1. destruct (Z.land (pk_skctl p) 136 =? 8).
    - pose proof (live_period _ _ _ 1 ci1 L). apply (onward_set 1 (cycle + period p 1)); auto using ci1; lia.
    - split; [exact L|now apply onward_refl]. }
  destruct X as (L1 & O1). clearbody p1. cbv zeta. apply do_tick_step; auto using ci0. apply O1.
Qed.

Lemma tick1_ok pp cycle limit p : 0 <= cycle <= limit -> live pp limit p -> (forall j, channel_index j -> cycle <= tick p j) ->
  wpg B F (tick1 pp cycle p) (step_post pp limit cycle 1 p).
Proof.
  intros Hc L H. unfold tick1. change (ch_tickCycle (pk_ch1 p)) with (tick p 1). destruct (cycle =? tick p 1) eqn:E; [|apply untouched; auto using ci1].
  set (p1 := if negb (Z.land (pk_audctl p) 16 =? 0) then _ else _).
  assert (X : live pp limit p1 /\ onward cycle p p1).
  { unfold p1. destruct (negb (Z.land (pk_audctl p) 16 =? 0)); [|destruct (negb (Z.land (pk_skctl p) 8 =? 0))].
    - pose proof (po_reload1 _ (lv_ok _ _ _ L)). apply (onward_set 0 (cycle + pk_reloadCycles1 p)); auto using ci0; lia.
    - pose proof (live_period _ _ _ 0 ci0 L). apply (onward_set 0 (cycle + period p 0)); auto using ci0; lia.
    - split; [exact L|now apply onward_refl]. }
  destruct X as (L1 & O1). clearbody p1. cbv zeta. apply do_tick_step; auto using ci1. apply O1.
Qed.

Lemma next_tick_min limit p : next_tick limit p <= limit /\ (forall j, channel_index j -> next_tick limit p <= tick p j) /\
  (forall c, c <= limit -> (forall j, channel_index j -> c <= tick p j) -> c <= next_tick limit p).
Proof.
  unfold next_tick. split; [lia|]. split.
  - intros j Hj. unfold tick. channels Hj; pkproj; lia.
  - intros c Hc H. pose proof (H 0 ci0). pose proof (H 1 ci1). pose proof (H 2 ci2). pose proof (H 3 ci3). unfold tick in *. pkproj. lia.
Qed.

(* what running the generator up to [limit] guarantees *)
Definition generated (pp : pokeyPair) (limit : Z) (p p' : pokey) : Prop :=
  live pp limit p' /\ same_regs p p' /\ forall j, channel_index j -> limit <= tick p' j.

Lemma generate_step_ok pp limit p0 p : 0 <= limit -> live pp limit p -> same_regs p0 p ->
  wpg B F (generate_step pp limit p) (fun r => match r with
    | inl p' => (live pp limit p' /\ same_regs p0 p') /\ 0 <= limit - next_tick limit p' < limit - next_tick limit p
    | inr p' => generated pp limit p0 p' end).
Proof.
  intros Hl L S. unfold generate_step. cbv zeta. destruct (next_tick_min limit p) as (M1 & M2 & M3).
  destruct (next_tick limit p =? limit) eqn:E.
  - cbn. split; [exact L|]. split; [exact S|]. intros j Hj. specialize (M2 j Hj). lia.
  - set (cycle := next_tick limit p) in *.
    assert (Hc : 0 <= cycle <= limit).
    { split; [|exact M1]. apply M3; [exact Hl|]. intros j Hj. now apply live_tick with pp limit. }
    apply wpg_bind. eapply wpg_mono; [apply (tick2_ok pp cycle limit p Hc L M2)|]. intros p1 (L1 & O1 & G1).
    apply wpg_bind. eapply wpg_mono; [apply (tick3_ok pp cycle limit p1 Hc L1); apply O1|]. intros p2 (L2 & O2 & G2).
    apply wpg_bind. eapply wpg_mono; [apply (tick0_ok pp cycle limit p2 Hc L2); apply O2|]. intros p3 (L3 & O3 & G3).
    apply wpg_bind. eapply wpg_mono; [apply (tick1_ok pp cycle limit p3 Hc L3); apply O3|]. intros p4 (L4 & O4 & G4).
    cbn. destruct O1 as (S1 & A1 & N1), O2 as (S2 & A2 & N2), O3 as (S3 & A3 & N3), O4 as (S4 & A4 & N4).
    split; [split; [exact L4|]|].
    + repeat (eapply same_regs_trans; [eassumption|]). apply same_regs_refl.
    + destruct (next_tick_min limit p4) as (Q1 & Q2 & Q3).
      assert (cycle + 1 <= next_tick limit p4); [|lia]. apply Q3; [lia|]. intros j Hj.
      assert (cycle < tick p4 j); [|lia].
      channels Hj; auto 10 using ci0, ci1, ci2, ci3.
Qed.

Lemma generate_until_ok pp limit p : 0 <= limit -> live pp limit p -> wpg B F (generate_until pp limit p) (generated pp limit p).
Proof.
  intros Hl L. unfold generate_until.
  destruct (next_tick_min limit p) as (M1 & _ & M3).
  apply (loopZ_wpg B F (generate_step pp limit) (fun q => live pp limit q /\ same_regs p q) (fun q => limit - next_tick limit q)).
  - intros q _. destruct (next_tick_min limit q) as (Q & _). lia.
  - intros q (Lq & Sq). eapply wpg_mono; [apply (generate_step_ok pp limit p q Hl Lq Sq)|].
    intros [q'|q']; [|auto]. intros (H1 & H2). split; [exact H1|right; lia].
  - split; [exact L|apply same_regs_refl].
  - right. lia.
Qed.

(* ---- register writes ---- *)
Lemma live_intro pp limit p p' : live pp limit p -> pokey_ok p' -> len (pk_deltaBuffer p') = len (pk_deltaBuffer p) /\ pk_trailing p' = pk_trailing p ->
  (mixed p -> mixed p') -> live pp limit p'.
Proof.
  intros [H1 H2 H3 H4] H5 [E E'] M. constructor; [exact H5|rewrite E; exact H2| |unfold sized; rewrite E, E'; exact H4].
  destruct H3 as [H3|H3]; [left; exact H3|right]. auto.
Qed.

Lemma generate_live pp cycle limit p : 0 <= cycle <= limit -> live pp limit p ->
  wpg B F (generate_until pp cycle p) (fun p' => live pp limit p' /\ same_regs p p' /\ forall j, channel_index j -> cycle <= tick p' j).
Proof.
  intros Hc L. eapply wpg_mono; [apply generate_until_ok; [lia|apply live_mono with limit; [exact L|lia]]|].
  intros p' (L' & S' & T'). split; [now apply (live_step pp cycle limit p p')|]. now split.
Qed.

Lemma unmuted c : audible c -> (Z.land (ch_mute c) 2 =? 0) = true.
Proof.
  unfold audible. intros H. apply Z.eqb_eq. apply Z.bits_inj. intros n. rewrite Z.land_spec, Z.bits_0.
  destruct (Z.eq_dec n 1) as [-> | N]; [now rewrite H|].
  assert (E : Z.testbit 2 n = false) by (change 2 with (2 ^ 1); rewrite Z.pow2_bits_eqb; lia).
  rewrite E. apply andb_false_r.
Qed.
Lemma mixed_audible p i : channel_index i -> mixed p -> audible (chan p i).
Proof. intros Hi [[] [] [] [] _]. channels Hi; assumption. Qed.

Lemma audc_final i data d p p' : channel_index i -> byte data -> pokey_ok p ->
  mixes d (upd_chan i (set_ch_audc data) p) p' ->
  forall v, let q := upd_chan i (set_ch_delta v) p' in
  pokey_ok q /\ (len (pk_deltaBuffer q) = len (pk_deltaBuffer p) /\ pk_trailing q = pk_trailing p) /\
  (Z.abs v = Z.land data 15 -> Z.max 0 v = Z.max 0 (ch_delta (chan p i)) + d -> mixed p -> mixed q).
Proof.
  intros Hi Hd K (b & o & E & ->) v. cbv zeta. split; [|split].
  - destruct K as [[] [] [] []]. channels Hi; constructor; pkproj; try assumption; constructor; assumption.
  - split; [channels Hi; pkproj; exact E|channels Hi; reflexivity].
  - intros Hv Hm [[A0 V0] [A1 V1] [A2 V2] [A3 V3] S]. unfold volume_ok, level, audible in *.
    channels Hi; constructor; unfold volume_ok, level, audible; pkproj; try (split; [assumption|]); try assumption; lia.
Qed.

Lemma mixes_0 p : mixes 0 p p.
Proof. exists (pk_deltaBuffer p), (pk_sumDACOutputs p). split; [reflexivity|]. rewrite Z.add_0_r. now destruct p. Qed.

Lemma mixed_replace i p v : channel_index i -> mixed p -> 0 <= v <= 15 ->
  0 <= pk_sumDACInputs p + (v - Z.max 0 (ch_delta (chan p i))) <= 60.
Proof.
  intros Hi [[_ H0] [_ H1] [_ H2] [_ H3] Hs] Hv. unfold volume_ok, level in *.
  pose proof (volume_range (ch_audc (pk_ch0 p))). pose proof (volume_range (ch_audc (pk_ch1 p))).
  pose proof (volume_range (ch_audc (pk_ch2 p))). pose proof (volume_range (ch_audc (pk_ch3 p))).
  channels Hi; pkproj; lia.
Qed.

Lemma set_audc_ok pp i data cycle limit p : channel_index i -> byte data -> 0 <= cycle <= limit -> live pp limit p ->
  wpg B F (set_audc pp i data cycle p) (live pp limit).
Proof.
  intros Hi Hd Hc L. unfold set_audc. destruct (ch_audc (chan p i) =? data); [exact L|].
  apply wpg_bind. eapply wpg_mono; [apply generate_live; [exact Hc|exact L]|]. intros p1 (L1 & _ & _). clear L p. cbv zeta.
  set (p2 := upd_chan i (set_ch_audc data) p1).
  assert (Ed : ch_delta (chan p2 i) = ch_delta (chan p1 i)) by (unfold p2; channels Hi; reflexivity).
  assert (Em : ch_mute (chan p2 i) = ch_mute (chan p1 i)) by (unfold p2; channels Hi; reflexivity).
  assert (Es : pk_sumDACInputs p2 = pk_sumDACInputs p1) by (unfold p2; channels Hi; reflexivity).
  assert (El : pk_deltaBuffer p2 = pk_deltaBuffer p1) by (unfold p2; channels Hi; reflexivity).
  rewrite Ed, Em. pose proof (volume_range data) as Hv. set (volume := Z.land data 15) in *. set (delta := ch_delta (chan p1 i)) in *.
  assert (Add : forall d, d = volume - Z.max 0 delta ->
     wpg B F (p <- (if negb (Z.land (ch_mute (chan p1 i)) 2 =? 0) then Ok p2 else add_delta pp cycle d p2) ;; Ok (upd_chan i (set_ch_delta volume) p))
       (live pp limit)).
  { intros d Hdd. apply wpg_bind.
    assert (Fin : forall d p', mixes d p2 p' -> (d = volume - Z.max 0 delta \/ ~ mixed p1) -> live pp limit (upd_chan i (set_ch_delta volume) p')).
    { intros d' p' M Q. destruct (audc_final i data d' p1 p' Hi Hd (lv_ok _ _ _ L1) M volume) as (F1 & F2 & F3).
      apply live_intro with p1; [exact L1|exact F1|exact F2|]. intros X. destruct Q as [Q|Q]; [|now contradict Q].
      apply F3; [lia| |exact X]. fold delta. lia. }
    destruct (negb (Z.land (ch_mute (chan p1 i)) 2 =? 0)) eqn:Mu.
    - cbn [wpg]. apply (Fin 0 p2 (mixes_0 p2)). right. intros X. pose proof (unmuted _ (mixed_audible p1 i Hi X)) as U. rewrite U in Mu. discriminate Mu.
    - eapply wpg_mono; [apply add_delta_ok|].
      + rewrite El. destruct (lv_room _ _ _ L1) as [X|X]; [left; exact X|right]. now apply room_mono with limit.
      + rewrite Es. destruct (lv_mixed _ _ _ L1) as [X|X2]; [left; exact X|right].
        subst d. now apply mixed_replace.
      + intros p' M. cbn [wpg]. apply (Fin d p' M). left. exact Hdd. }
  destruct (negb (Z.land data 16 =? 0)).
  - apply Add. destruct (0 <? delta) eqn:E; lia.
  - destruct (0 <? delta) eqn:E; [apply Add; lia|]. cbn [wpg].
    destruct (audc_final i data 0 p1 p2 Hi Hd (lv_ok _ _ _ L1) (mixes_0 p2) (- volume)) as (F1 & F2 & F3).
    apply live_intro with p1; [exact L1|exact F1|exact F2|]. intros X. apply F3; [lia| |exact X]. fold delta. lia.
Qed.

(* changes of a channel that do not touch its contribution to the output *)
Definition tame (f : channel -> channel) : Prop := forall c, chan_ok c ->
  chan_ok (f c) /\ (audible c -> audible (f c)) /\ (volume_ok c -> volume_ok (f c)) /\ level (f c) = level c.

Lemma live_upd i f pp limit p : channel_index i -> tame f -> live pp limit p -> live pp limit (upd_chan i f p).
Proof.
  intros Hi T L. pose proof L as [K _ _ _].
  apply live_intro with p; [exact L| | |].
  - destruct K as [K0 K1 K2 K3]. channels Hi; constructor; pkproj; try assumption; now apply T.
  - channels Hi; split; reflexivity.
  - destruct K as [K0 K1 K2 K3]. intros [[A0 V0] [A1 V1] [A2 V2] [A3 V3] S].
    assert (G : forall c, chan_ok c -> audible c -> volume_ok c -> (audible (f c) /\ volume_ok (f c)) /\ level (f c) = level c)
      by (intros c Kc Ac Vc; destruct (T c Kc) as (_ & T1 & T2 & T3); auto).
    pose proof (G _ K0 A0 V0) as [G0 E0]. pose proof (G _ K1 A1 V1) as [G1 E1]. pose proof (G _ K2 A2 V2) as [G2 E2]. pose proof (G _ K3 A3 V3) as [G3 E3].
    channels Hi; constructor; pkproj; rewrite ?E0, ?E1, ?E2, ?E3; auto.
Qed.

Lemma tame_audf v : byte v -> tame (set_ch_audf v).
Proof. intros H c []. split; [constructor; assumption|]. auto. Qed.
Lemma tame_period v : 1 <= v -> tame (set_period v).
Proof. intros H c []. split; [constructor; assumption|]. auto. Qed.
Lemma tame_timer v : tame (set_ch_timerCycle v).
Proof. intros c []. split; [constructor; assumption|]. auto. Qed.
Lemma tame_tick v : 0 <= v -> tame (set_ch_tickCycle v).
Proof. intros H c []. split; [constructor; assumption|]. auto. Qed.
Lemma tame_stimer v : 0 <= v -> tame (do_stimer v).
Proof.
  intros H c K. unfold do_stimer. destruct (ch_tickCycle c =? never); [auto|]. apply tame_tick; [|exact K]. destruct K. lia.
Qed.
Lemma testbit_mask_1 m : m = 1 \/ m = 4 -> Z.testbit m 1 = false.
Proof. intros [-> | ->]; reflexivity. Qed.
Lemma tame_mute enable mask cycle : mask = 1 \/ mask = 4 -> 0 <= cycle -> tame (set_mute enable mask cycle).
Proof.
  intros Hm Hc c K. pose proof (testbit_mask_1 mask Hm) as Em. unfold set_mute. destruct enable.
  - split; [destruct K; constructor; pkproj; try assumption; unfold never; lia|]. split; [|auto].
    unfold audible. pkproj. rewrite Z.lor_spec, Em. intros ->. reflexivity.
  - assert (A : audible c -> audible (set_ch_mute (Z.land (ch_mute c) (Z.lnot mask)) c)).
    { unfold audible. pkproj. rewrite Z.land_spec. intros ->. reflexivity. }
    assert (K' : chan_ok (set_ch_mute (Z.land (ch_mute c) (Z.lnot mask)) c)) by (destruct K; constructor; assumption).
    destruct ((ch_mute _ =? 0) && _).
    + destruct (tame_tick cycle Hc _ K') as (T1 & T2 & T3 & T4). split; [exact T1|]. split; [auto|]. split; auto.
    + split; [exact K'|]. split; [exact A|]. auto.
Qed.

Lemma live_regs pp limit p p' : live pp limit p -> pokey_ok p' ->
  pk_ch0 p' = pk_ch0 p -> pk_ch1 p' = pk_ch1 p -> pk_ch2 p' = pk_ch2 p -> pk_ch3 p' = pk_ch3 p ->
  pk_deltaBuffer p' = pk_deltaBuffer p -> pk_sumDACInputs p' = pk_sumDACInputs p -> pk_trailing p' = pk_trailing p -> live pp limit p'.
Proof.
  intros L K E0 E1 E2 E3 E4 E5 E6. apply live_intro with p; [exact L|exact K|now rewrite E4|].
  intros [M0 M1 M2 M3 S]. constructor; rewrite ?E0, ?E1, ?E2, ?E3, ?E5; assumption.
Qed.
Ltac regs := match goal with H : live _ _ ?p |- live _ _ _ => apply live_regs with p; try reflexivity; [exact H|destruct H as [[] _ _ _]; constructor; pkproj; try assumption; auto] end.
Lemma live_reload1 v pp limit p : 1 <= v -> live pp limit p -> live pp limit (set_pk_reloadCycles1 v p).
Proof. intros. regs. Qed.
Lemma live_reload3 v pp limit p : 1 <= v -> live pp limit p -> live pp limit (set_pk_reloadCycles3 v p).
Proof. intros. regs. Qed.
Lemma live_audctl v pp limit p : byte v -> live pp limit p -> live pp limit (set_pk_audctl v p).
Proof. intros. regs. Qed.
Lemma live_skctl v pp limit p : byte v -> live pp limit p -> live pp limit (set_pk_skctl v p).
Proof. intros. regs. Qed.
Lemma live_irqst v pp limit p : byte v -> live pp limit p -> live pp limit (set_pk_irqst v p).
Proof. intros. regs. Qed.
Lemma live_init v pp limit p : live pp limit p -> live pp limit (set_pk_init v p).
Proof. intros. regs. Qed.
Lemma live_div v pp limit p : v = 28 \/ v = 114 -> live pp limit p -> live pp limit (set_pk_divCycles v p).
Proof. intros. regs. Qed.
Lemma live_poly v pp limit p : 131072 <= v -> live pp limit p -> live pp limit (set_pk_polyIndex v p).
Proof. intros. regs. Qed.

Lemma live_div_ge pp limit p : live pp limit p -> 28 <= pk_divCycles p.
Proof. intros [[] _]. lia. Qed.
Lemma live_audf pp limit p i : channel_index i -> live pp limit p -> byte (ch_audf (chan p i)).
Proof. intros Hi [[[] [] [] []] _ _ _]. channels Hi; assumption. Qed.
Lemma shl8_nonneg v : byte v -> 0 <= Z.shiftl v 8.
Proof. intros H. rewrite Z.shiftl_mul_pow2 by lia. unfold byte in H. lia. Qed.
Lemma div_period d v : 28 <= d -> 0 <= v -> 1 <= d * (v + 1).
Proof. nia. Qed.

Lemma sweep_land (m : Z) (q : Z -> bool) v : forallb (fun v => q (Z.land v m)) (zrange 256) = true -> byte v -> q (Z.land v m) = true.
Proof.
  intros H Hv. eapply forallb_forall in H; [exact H|]. unfold zrange. apply in_map_iff. exists (Z.to_nat v). unfold byte in Hv. split; [lia|]. apply in_seq. lia.
Qed.
Lemma land_80 v : byte v -> Z.land v 80 = 0 \/ Z.land v 80 = 16 \/ Z.land v 80 = 64 \/ Z.land v 80 = 80.
Proof.
  intros H. assert (E := sweep_land 80 (fun v => (v =? 0) || (v =? 16) || (v =? 64) || (v =? 80)) v eq_refl H). cbv beta in E. lia.
Qed.
Lemma land_40 v : byte v -> Z.land v 40 = 0 \/ Z.land v 40 = 8 \/ Z.land v 40 = 32 \/ Z.land v 40 = 40.
Proof.
  intros H. assert (E := sweep_land 40 (fun v => (v =? 0) || (v =? 8) || (v =? 32) || (v =? 40)) v eq_refl H). cbv beta in E. lia.
Qed.

Ltac periods := auto using ci0, ci1, ci2, ci3; unfold byte in *; try lia; try nia.
Ltac tune := repeat first
  [ apply live_reload1; [periods|] | apply live_reload3; [periods|]
  | apply live_upd; [periods|apply tame_period; periods|] ]; try assumption.

Lemma poke_audf_ok pp data cycle limit p : byte data -> 0 <= cycle <= limit -> live pp limit p ->
  wpg B F (poke_audf0 data cycle pp p) (live pp limit) /\ wpg B F (poke_audf1 data cycle pp p) (live pp limit) /\
  wpg B F (poke_audf2 data cycle pp p) (live pp limit) /\ wpg B F (poke_audf3 data cycle pp p) (live pp limit).
Proof.
  intros Hd Hc L.
  unfold poke_audf0, poke_audf1, poke_audf2, poke_audf3. cbv zeta. split; [|split; [|split]].
  - destruct (data =? _); [exact L|]. apply wpg_bind. eapply wpg_mono; [apply generate_live; [exact Hc|exact L]|]. intros p1 (L1 & _).
    pose proof (live_upd 0 _ _ _ _ ci0 (tame_audf data Hd) L1) as L2. set (p2 := upd_chan 0 (set_ch_audf data) p1) in *. clearbody p2.
    pose proof (live_div_ge _ _ _ L2). pose proof (live_audf _ _ _ 1 ci1 L2) as H1. change (chan p2 1) with (pk_ch1 p2) in H1. pose proof (shl8_nonneg _ H1).
    destruct (land_80 _ (po_audctl _ (lv_ok _ _ _ L2))) as [E | [E | [E | E]]]; rewrite E; cbn [wpg]; tune.
  - destruct (data =? _); [exact L|]. apply wpg_bind. eapply wpg_mono; [apply generate_live; [exact Hc|exact L]|]. intros p1 (L1 & _).
    pose proof (live_upd 1 _ _ _ _ ci1 (tame_audf data Hd) L1) as L2. set (p2 := upd_chan 1 (set_ch_audf data) p1) in *. clearbody p2.
    pose proof (live_div_ge _ _ _ L2). pose proof (live_audf _ _ _ 0 ci0 L2) as H1. change (chan p2 0) with (pk_ch0 p2) in H1. pose proof (shl8_nonneg _ Hd).
    destruct (land_80 _ (po_audctl _ (lv_ok _ _ _ L2))) as [E | [E | [E | E]]]; rewrite E; cbn [wpg]; tune.
  - destruct (data =? _); [exact L|]. apply wpg_bind. eapply wpg_mono; [apply generate_live; [exact Hc|exact L]|]. intros p1 (L1 & _).
    pose proof (live_upd 2 _ _ _ _ ci2 (tame_audf data Hd) L1) as L2. set (p2 := upd_chan 2 (set_ch_audf data) p1) in *. clearbody p2.
    pose proof (live_div_ge _ _ _ L2). pose proof (live_audf _ _ _ 3 ci3 L2) as H1. change (chan p2 3) with (pk_ch3 p2) in H1. pose proof (shl8_nonneg _ H1).
    destruct (land_40 _ (po_audctl _ (lv_ok _ _ _ L2))) as [E | [E | [E | E]]]; rewrite E; cbn [wpg]; tune.
  - destruct (data =? _); [exact L|]. apply wpg_bind. eapply wpg_mono; [apply generate_live; [exact Hc|exact L]|]. intros p1 (L1 & _).
    pose proof (live_upd 3 _ _ _ _ ci3 (tame_audf data Hd) L1) as L2. set (p2 := upd_chan 3 (set_ch_audf data) p1) in *. clearbody p2.
    pose proof (live_div_ge _ _ _ L2). pose proof (live_audf _ _ _ 2 ci2 L2) as H1. change (chan p2 2) with (pk_ch2 p2) in H1. pose proof (shl8_nonneg _ Hd).
    destruct (land_40 _ (po_audctl _ (lv_ok _ _ _ L2))) as [E | [E | [E | E]]]; rewrite E; cbn [wpg]; tune.
Qed.

Lemma live_init_mute cycle pp limit p : 0 <= cycle -> live pp limit p -> live pp limit (init_mute cycle p).
Proof.
  intros Hc L. unfold init_mute. cbv zeta.
  repeat (apply live_upd; [auto using ci0, ci1, ci2, ci3|apply tame_mute; auto|]). exact L.
Qed.

Lemma poke_audctl_ok pp data cycle limit p : byte data -> 0 <= cycle <= limit -> live pp limit p ->
  wpg B F (poke_audctl data cycle pp p) (live pp limit).
Proof.
  intros Hd Hc L. unfold poke_audctl. destruct (data =? _); [exact L|]. apply wpg_bind.
  eapply wpg_mono; [apply generate_live; [exact Hc|exact L]|]. intros p1 (L1 & _). cbv zeta. clear L p.
  set (d := if negb (Z.land data 1 =? 0) then 114 else 28).
  assert (Hdv : d = 28 \/ d = 114) by (unfold d; destruct (negb (Z.land data 1 =? 0)); auto).
  pose proof (live_div d _ _ _ Hdv (live_audctl data _ _ _ Hd L1)) as L2.
  set (p2 := set_pk_divCycles d (set_pk_audctl data p1)) in *. clearbody p2. clear L1 p1.
  apply wpg_bind. unfold audctl_pair0. cbv zeta.
  assert (L3 : wpg B F (audctl_pair0 data p2) (live pp limit)).
  { unfold audctl_pair0. cbv zeta. pose proof (live_div_ge _ _ _ L2).
    pose proof (live_audf _ _ _ 0 ci0 L2) as H0. change (chan p2 0) with (pk_ch0 p2) in H0.
    pose proof (live_audf _ _ _ 1 ci1 L2) as H1. change (chan p2 1) with (pk_ch1 p2) in H1. pose proof (shl8_nonneg _ H1).
    assert (1 <= Z.shiftl (pk_divCycles p2) 8) by (rewrite Z.shiftl_mul_pow2; lia).
    destruct (land_80 _ Hd) as [E | [E | [E | E]]]; rewrite E; cbn [wpg]; tune. }
  eapply wpg_mono; [exact L3|]. clear L2 L3 p2. intros p2 L2. apply wpg_bind.
  assert (L3 : wpg B F (audctl_pair2 data p2) (live pp limit)).
  { unfold audctl_pair2. cbv zeta. pose proof (live_div_ge _ _ _ L2).
    pose proof (live_audf _ _ _ 2 ci2 L2) as H0. change (chan p2 2) with (pk_ch2 p2) in H0.
    pose proof (live_audf _ _ _ 3 ci3 L2) as H1. change (chan p2 3) with (pk_ch3 p2) in H1. pose proof (shl8_nonneg _ H1).
    assert (1 <= Z.shiftl (pk_divCycles p2) 8) by (rewrite Z.shiftl_mul_pow2; lia).
    destruct (land_40 _ Hd) as [E | [E | [E | E]]]; rewrite E; cbn [wpg]; tune. }
  eapply wpg_mono; [exact L3|]. intros p3 L4. cbn [wpg]. apply live_init_mute; [lia|exact L4].
Qed.

Lemma stimer_ok cycle pp limit p : 0 <= cycle -> live pp limit p -> live pp limit (for_channels (do_stimer cycle) p).
Proof.
  intros Hc L. unfold for_channels. repeat (apply live_upd; [auto using ci0, ci1, ci2, ci3|now apply tame_stimer|]). exact L.
Qed.

Lemma byte_lor a b : byte a -> byte b -> byte (Z.lor a b).
Proof.
  intros Ha Hb. unfold byte in *. split; [apply Z.lor_nonneg; lia|].
  assert (G : forall v, 0 <= v < 256 -> v = 0 \/ Z.log2 v < 8).
  { intros v Hv. destruct (Z.eq_dec v 0); [auto|right]. apply Z.log2_lt_pow2; lia. }
  destruct (Z.eq_dec (Z.lor a b) 0) as [-> | N]; [lia|].
  assert (0 < Z.lor a b) by (pose proof (proj2 (Z.lor_nonneg a b) ltac:(lia)); lia).
  apply (Z.log2_lt_pow2 _ 8); [assumption|]. rewrite Z.log2_lor by lia.
  destruct (G a Ha) as [-> | ?], (G b Hb) as [-> | ?]; cbn; lia.
Qed.
Lemma lxor_255 v : byte v -> byte (Z.lxor v 255).
Proof.
  intros H. assert (E := sweep_land 255 (fun v => (0 <=? Z.lxor v 255) && (Z.lxor v 255 <? 256)) v eq_refl H). cbv beta in E.
  rewrite land_255 in E. rewrite Z.mod_small in E by exact H. unfold byte. lia.
Qed.

Lemma first_timer_ok cycle period t : 1 <= period -> wpg B F (first_timer cycle period t) (fun r => cycle <= r).
Proof.
  intros Hp. unfold first_timer. destruct (Z.le_gt_cases cycle t) as [H|H].
  - rewrite loopZ_loop. generalize (Nat.pred (Pos.to_nat (Z.to_pos (cycle - t + 1)))). intros n.
    assert (E : first_timer_step cycle period t = leave t) by (unfold first_timer_step; replace (t <? cycle) with false by lia; reflexivity).
    destruct n; cbn [loop]; rewrite E; cbn; exact H.
  - apply (loopZ_wpg B F (first_timer_step cycle period) (fun _ => True) (fun t => Z.max 0 (cycle - t))).
    + intros; lia.
    + intros u _. unfold first_timer_step. destruct (u <? cycle) eqn:E; cbn; [split; [exact I|right; lia]|lia].
    + exact I.
    + right. lia.
Qed.

Lemma irqen_channel_ok data cycle i pp limit next p : channel_index i -> cycle <= never -> live pp limit p -> cycle <= next ->
  wpg B F (irqen_channel data cycle i (next, p)) (fun r => cycle <= fst r /\ live pp limit (snd r)).
Proof.
  intros Hi Hn L H. unfold irqen_channel. cbv zeta.
  destruct (negb (Z.land (Z.land data (pk_irqst p)) (i + 1) =? 0)); [destruct (ch_timerCycle (chan p i) =? never)|].
  - apply wpg_bind. eapply wpg_mono; [apply first_timer_ok; apply (live_period _ _ _ i Hi L)|].
    intros t Ht. cbn beta in Ht. cbn [wpg fst snd]. split; [clear - H Ht; lia|]. apply live_upd; [exact Hi|apply tame_timer|exact L].
  - cbn. now split.
  - cbn. split; [exact H|]. apply live_upd; [exact Hi|apply tame_timer|exact L].
Qed.

Lemma poke_irqen_ok pp data cycle limit p : byte data -> cycle <= never -> live pp limit p ->
  wpg B F (poke_irqen data cycle p) (fun r => cycle <= fst r /\ live pp limit (snd r)).
Proof.
  intros Hd Hn L. unfold poke_irqen. cbv zeta.
  set (p1 := set_pk_irqst _ p). assert (L1 : live pp limit p1).
  { apply live_irqst; [|exact L]. apply byte_lor; [apply (po_irqst _ (lv_ok _ _ _ L))|now apply lxor_255]. }
  clearbody p1. apply wpg_bind. eapply wpg_mono; [apply (irqen_channel_ok data cycle 3 pp limit); auto using ci3|].
  intros [n2 p2] (N2 & L2). apply wpg_bind. eapply wpg_mono; [apply (irqen_channel_ok data cycle 1 pp limit); auto using ci1|].
  intros [n3 p3] (N3 & L3). apply irqen_channel_ok; auto using ci0.
Qed.

(* cycle numbers reached by a frame are far below this *)
Definition short (cycle : Z) : Prop := 0 <= cycle <= 100000.

Lemma poke_skctl_ok pp data cycle limit p : byte data -> short cycle -> cycle <= limit -> live pp limit p ->
  wpg B F (poke_skctl data cycle pp p) (live pp limit).
Proof.
  intros Hd Hs Hc L. unfold short in Hs. unfold poke_skctl. destruct (data =? _); [exact L|]. apply wpg_bind.
  eapply wpg_mono; [apply generate_live; [|exact L]; lia|]. intros p1 (L1 & _). cbv zeta. clear L p. cbn [wpg].
  apply (live_skctl data) in L1; [|exact Hd]. set (p2 := set_pk_skctl data p1) in *. clearbody p2.
  assert (L3 : live pp limit (if pk_init p2 && negb (Z.land data 3 =? 0) then
    set_pk_polyIndex ((if negb (Z.land (pk_audctl p2) 128 =? 0) then 237614 else 60948014) - cycle) p2 else p2)).
  { destruct (pk_init p2 && negb (Z.land data 3 =? 0)); [|exact L1]. apply live_poly; [|exact L1].
    destruct (negb (Z.land (pk_audctl p2) 128 =? 0)); lia. }
  do 2 (apply live_upd; [auto using ci2, ci3|apply tame_mute; [auto|lia]|]).
  apply live_init_mute; [lia|]. apply live_init. exact L3.
Qed.

(* every register write *)
Lemma pokey_poke_ok pp addr data cycle limit p : byte data -> short cycle -> cycle <= limit -> live pp limit p ->
  wpg B F (pokey_poke pp addr data cycle p) (fun r => cycle <= fst r /\ live pp limit (snd r)).
Proof.
  intros Hd Hs Hl L. assert (Hc : 0 <= cycle <= limit) by (unfold short in Hs; lia).
  assert (Hn : cycle <= never) by (unfold short, never in *; lia).
  assert (G : forall m, wpg B F m (live pp limit) -> wpg B F (plain m) (fun r => cycle <= fst r /\ live pp limit (snd r))).
  { intros m H. unfold plain. apply wpg_bind. eapply wpg_mono; [exact H|]. intros q Q. cbn. now split. }
  assert (N : wpg B F (Ok (never, p)) (fun r => cycle <= fst r /\ live pp limit (snd r))) by (cbn; now split).
  destruct (poke_audf_ok pp data cycle limit p Hd Hc L) as (F0 & F1 & F2 & F3).
  unfold pokey_poke.
  assert (R : 0 <= Z.land addr 15 < 16) by (change 15 with (Z.ones 4); rewrite Z.land_ones by lia; change (2 ^ 4) with 16; lia).
  generalize dependent (Z.land addr 15). intros r R.
  assert (C : In r (map Z.of_nat (seq 0 16))) by (apply in_map_iff; exists (Z.to_nat r); split; [lia|apply in_seq; lia]).
  cbn in C. repeat (destruct C as [<- | C]); try exact N; try (apply G; auto using set_audc_ok, ci0, ci1, ci2, ci3; fail); try tauto.
  - apply G. now apply poke_audctl_ok.
  - cbn. split; [exact Hn|]. apply stimer_ok; [lia|exact L].
  - now apply poke_irqen_ok.
  - apply G. now apply poke_skctl_ok.
Qed.

(* the timer interrupts *)
Lemma byte_land_lnot v m : byte v -> byte (Z.land v (Z.lnot m)).
Proof.
  intros H. unfold byte in *. split; [apply Z.land_nonneg; lia|].
  assert (E : Z.land v (Z.lnot m) = Z.land (Z.land v (Z.lnot m)) 255).
  { rewrite <- Z.land_assoc, (Z.land_comm _ 255), Z.land_assoc, land_255, Z.mod_small by lia. reflexivity. }
  rewrite E, land_255. lia.
Qed.
Lemma check_irq_ok pp limit cycle next p : live pp limit p -> live pp limit (snd (pokey_check_irq cycle next p)).
Proof.
  intros L.
  assert (G : forall i n q, channel_index i -> live pp limit q -> live pp limit (snd (check_timer cycle i (n, q)))).
  { intros i n q Hi Lq. unfold check_timer. cbv zeta. destruct (_ <=? cycle); [|exact Lq]. cbn [snd].
    apply live_upd; [exact Hi|apply tame_timer|]. apply live_irqst; [|exact Lq]. apply byte_land_lnot. apply (po_irqst _ (lv_ok _ _ _ Lq)). }
  unfold pokey_check_irq.
  pose proof (G 3 next p ci3 L) as L1. destruct (check_timer cycle 3 (next, p)) as [n1 p1].
  pose proof (G 1 n1 p1 ci1 L1) as L2. destruct (check_timer cycle 1 (n1, p1)) as [n2 p2].
  exact (G 0 n2 p2 ci0 L2).
Qed.
(* the next event lies after the cycle and not after [next] *)
Lemma check_irq_next cycle next p : cycle < next -> cycle < fst (pokey_check_irq cycle next p) <= next.
Proof. clear Sz.
  intros H.
  assert (G : forall i n q, cycle < n <= next -> cycle < fst (check_timer cycle i (n, q)) <= next).
  { intros i n q Hn. unfold check_timer. cbv zeta. destruct (_ <=? cycle) eqn:E; cbn [fst]; lia. }
  unfold pokey_check_irq.
  pose proof (G 3 next p ltac:(lia)) as L1. destruct (check_timer cycle 3 (next, p)) as [n1 p1].
  pose proof (G 1 n1 p1 L1) as L2. destruct (check_timer cycle 1 (n1, p1)) as [n2 p2].
  exact (G 0 n2 p2 L2).
Qed.

(* the end of a frame *)
Lemma end_frame_ok pp cycle limit p : short cycle -> cycle <= limit -> live pp limit p -> wpg B F (pokey_end_frame pp cycle p) (live pp limit).
Proof.
  intros Hs Hl L. unfold short in Hs. unfold pokey_end_frame. apply wpg_bind.
  eapply wpg_mono; [apply generate_live; [|exact L]; lia|]. intros p1 (L1 & _ & T1). cbv zeta. cbn [wpg].
  set (poly := if _ <=? _ then _ else _).
  assert (Hp : 131072 <= poly).
  { pose proof (po_poly _ (lv_ok _ _ _ L1)). unfold poly. destruct (negb _); match goal with |- context [if ?c then _ else _] => destruct c eqn:E end; lia. }
  clearbody poly. pose proof (live_poly poly _ _ _ Hp L1) as L2.
  assert (T2 : forall j, channel_index j -> cycle <= tick (set_pk_polyIndex poly p1) j) by (intros j Hj; specialize (T1 j Hj); unfold tick in *; channels Hj; exact T1).
  set (p2 := set_pk_polyIndex poly p1) in *. clearbody p2. clear T1 L1 p1.
  set (f := fun c => if ch_tickCycle c =? never then c else set_ch_tickCycle (ch_tickCycle c - cycle) c).
  apply live_intro with p2; [exact L2| | |].
  - pose proof (T2 0 ci0). pose proof (T2 1 ci1). pose proof (T2 2 ci2). pose proof (T2 3 ci3). unfold tick in *. pkproj.
    assert (G : forall c, chan_ok c -> cycle <= ch_tickCycle c -> chan_ok (f c)).
    { intros c [] Hc. unfold f. destruct (_ =? never); constructor; pkproj; try assumption. lia. }
    destruct (lv_ok _ _ _ L2). unfold for_channels. constructor; pkproj; auto.
  - split; reflexivity.
  - intros [M0 M1 M2 M3 S]. unfold for_channels.
    assert (G : forall c, audible c /\ volume_ok c -> audible (f c) /\ volume_ok (f c)) by (intros c; unfold f; destruct (_ =? never); auto).
    assert (E : forall c, level (f c) = level c) by (intros c; unfold f; destruct (_ =? never); auto).
    constructor; pkproj; rewrite ?E; auto.
Qed.
End Output.
