(* The periods and ticks of the POKEY channels. *)
From Verif Require Import Base BaseFacts Loop MachineWitness CpuWitness PokeyWitness InfoProofs PokeyModel PokeyProofs TuneSpec.

Ltac channels H := destruct H as [H | [H | [H | H]]]; try subst.

Definition pc {A} (m : outcome A) (P : A -> Prop) : Prop := wpg (fun _ => True) True m P.
Lemma pc_ok {A} (m : outcome A) (P : A -> Prop) a : pc m P -> m = Ok a -> P a.
Proof. apply wpg_ok. Qed.

(* registers and periods *)
Definition same_tuning (p p' : pokey) : Prop :=
  (forall i, channel_index i -> ch_audf (chan p' i) = ch_audf (chan p i) /\ ch_periodCycles (chan p' i) = ch_periodCycles (chan p i))
  /\ pk_audctl p' = pk_audctl p /\ pk_skctl p' = pk_skctl p /\ pk_divCycles p' = pk_divCycles p
  /\ pk_reloadCycles1 p' = pk_reloadCycles1 p /\ pk_reloadCycles3 p' = pk_reloadCycles3 p.

Lemma same_refl p : same_tuning p p.
Proof. repeat split. Qed.
Lemma same_trans a b c : same_tuning a b -> same_tuning b c -> same_tuning a c.
Proof.
  intros (A1 & A2 & A3 & A4 & A5 & A6) (B1 & B2 & B3 & B4 & B5 & B6). split; [|intuition congruence].
  intros i Hi. destruct (A1 i Hi), (B1 i Hi). split; congruence.
Qed.

Definition ticks_kept (p p' : pokey) : Prop := forall i, channel_index i -> tick p' i = tick p i.

Lemma same_upd i f p : channel_index i -> (forall c, ch_audf (f c) = ch_audf c /\ ch_periodCycles (f c) = ch_periodCycles c) -> same_tuning p (upd_chan i f p).
Proof.
  intros Hi H. split.
  - intros j Hj. channels Hi; channels Hj; cbn; auto.
  - channels Hi; cbn; auto.
Qed.

Lemma kept_upd i f p : channel_index i -> (forall c, ch_tickCycle (f c) = ch_tickCycle c) -> ticks_kept p (upd_chan i f p).
Proof. intros Hi H j Hj. unfold tick. channels Hi; channels Hj; cbn; auto. Qed.

Lemma same_buffer p b x y : same_tuning p (set_pk_sumDACOutputs y (set_pk_deltaBuffer b (set_pk_sumDACInputs x p)))
  /\ ticks_kept p (set_pk_sumDACOutputs y (set_pk_deltaBuffer b (set_pk_sumDACInputs x p))).
Proof. split; [split; [|repeat split]|]; intros i Hi; unfold tick; channels Hi; cbn; auto. Qed.

Lemma add_delta_pc pp cycle d p : pc (add_delta pp cycle d p) (fun p' => same_tuning p p' /\ ticks_kept p p').
Proof.
  unfold add_delta, add_external_delta. cbv zeta. apply wpg_bind. destruct (get _ _) as [v| | |]; cbn [wpg]; auto.
  apply wpg_bind. destruct (chk _) as [e| | |]; cbn [wpg]; auto. apply wpg_bind. destruct (e =? 0).
  - cbn [wpg]. split; [split; [|repeat split]|]; intros i Hi; unfold tick; channels Hi; cbn; auto.
  - apply wpg_bind. destruct (chk _) as [n| | |]; cbn [wpg]; auto. apply wpg_bind.
    match goal with |- wpg _ _ ?m _ => destruct m end; cbn [wpg]; auto. apply same_buffer.
Qed.

Lemma slope_pc pp i cycle p : channel_index i -> pc (slope pp i cycle p) (fun p' => same_tuning p p' /\ ticks_kept p p').
Proof.
  intros Hi. unfold slope. cbv zeta. set (f := fun c => set_ch_delta (- ch_delta c) c).
  eapply wpg_mono; [apply add_delta_pc|]. intros p' [S T]. split.
  - eapply same_trans; [apply (same_upd i f p Hi); intros c; cbn; auto|exact S].
  - intros j Hj. rewrite T by exact Hj. apply (kept_upd i f p Hi); [intros c; reflexivity|exact Hj].
Qed.

Definition ticks (ch : Z) (p p' : pokey) : Prop :=
  same_tuning p p' /\ tick p' ch = tick p ch + period p ch /\ forall j, channel_index j -> j <> ch -> tick p' j = tick p j.

Lemma do_tick_pc pp ch cycle p : channel_index ch -> pc (do_tick pp ch cycle p) (ticks ch p).
Proof.
  intros Hi. unfold do_tick. cbv zeta. set (p1 := upd_chan ch (fun c => set_ch_tickCycle (ch_tickCycle c + ch_periodCycles c) c) p).
  assert (R1 : ticks ch p p1).
  { split; [apply same_upd; [exact Hi|intros c; cbn; auto]|]. unfold p1, tick, period. split.
    - channels Hi; reflexivity.
    - intros j Hj N. channels Hi; channels Hj; try reflexivity; now contradiction N. }
  assert (FLIP : forall v, pc (slope pp ch cycle (upd_chan ch (set_ch_out v) p1)) (ticks ch p)).
  { intros v. eapply wpg_mono; [apply slope_pc; exact Hi|]. intros p' [S T]. destruct R1 as (A & B & C).
    assert (K : ticks_kept p1 (upd_chan ch (set_ch_out v) p1)) by (apply kept_upd; [exact Hi|reflexivity]).
    split; [|split].
    - eapply same_trans; [exact A|]. eapply same_trans; [|exact S]. apply same_upd; [exact Hi|intros c; cbn; auto].
    - rewrite T, K by exact Hi. exact B.
    - intros j Hj N. rewrite T, K by exact Hj. now apply C. }
  destruct (Z.land _ 176 =? 160); [apply FLIP|]. destruct (negb _ || _); [exact R1|]. apply wpg_bind.
  match goal with |- wpg _ _ ?m _ => destruct m as [[]| | |] end; cbn [wpg]; auto.
  destruct (negb _); [apply FLIP|]. apply wpg_bind.
  match goal with |- wpg _ _ ?m _ => destruct m as [v| | |] end; cbn [wpg]; auto.
  destruct (_ =? Z.land v 1); [exact R1|apply FLIP].
Qed.

Lemma bit_test v n m : m = 2 ^ n -> 0 <= n -> negb (Z.land v m =? 0) = Z.testbit v n.
Proof.
  intros -> Hn. destruct (Z.testbit v n) eqn:B.
  - apply negb_true_iff, Z.eqb_neq. intros C. assert (K : Z.testbit (Z.land v (2 ^ n)) n = false) by (rewrite C; apply Z.bits_0).
    rewrite Z.land_spec, B, Z.pow2_bits_true in K by exact Hn. discriminate.
  - apply negb_false_iff, Z.eqb_eq. apply Z.bits_inj'. intros k Hk. rewrite Z.land_spec, Z.bits_0.
    destruct (Z.eq_dec k n) as [-> |N]; [now rewrite B|]. rewrite Z.pow2_bits_false by auto. apply andb_false_r.
Qed.

(* ---- periodicity ---- *)
(* the state of channel i within a run of the generator that started with p *)
Definition on_grid (limit i : Z) (p q : pokey) : Prop :=
  same_tuning p q /\ exists k, 0 <= k /\ tick q i = tick p i + k * period p i /\ (k = 0 \/ tick q i < limit + period p i).

Lemma grid_keep limit i p q r : channel_index i -> on_grid limit i p q -> same_tuning q r -> tick r i = tick q i -> on_grid limit i p r.
Proof. intros Hi (S & k & A & B & C) S' T. split; [now apply same_trans with q|]. exists k. rewrite T. auto. Qed.

Lemma grid_tick limit i p q r : channel_index i -> on_grid limit i p q -> ticks i q r -> tick q i < limit -> on_grid limit i p r.
Proof.
  intros Hi (S & k & A & B & C) (S' & T & _) L. split; [now apply same_trans with q|]. exists (k + 1).
  assert (P : period q i = period p i) by (destruct S as [S _]; destruct (S i Hi) as [_ E]; exact E).
  rewrite T, P. split; [lia|]. split; [lia|right; lia].
Qed.

Lemma grid_other limit i ch p q r : channel_index i -> i <> ch -> on_grid limit i p q -> ticks ch q r -> on_grid limit i p r.
Proof. intros Hi N G (S & _ & T). apply grid_keep with q; auto. Qed.

Lemma tick_other ch i f q : channel_index ch -> channel_index i -> i <> ch -> tick (upd_chan ch f q) i = tick q i.
Proof. intros Hc Hi N. unfold tick. channels Hc; channels Hi; try reflexivity; now contradiction N. Qed.

Lemma next_tick_low limit q : next_tick limit q <= limit /\ forall j, channel_index j -> next_tick limit q <= tick q j.
Proof. unfold next_tick. split; [lia|]. intros j Hj. unfold tick. channels Hj; cbn; lia. Qed.

Section GRID.
Variables (pp : pokeyPair) (limit i : Z) (p : pokey).
Hypothesis Hi : channel_index i.
Hypothesis NR : restarted p i = false.

Lemma tick_grid ch cycle q : channel_index ch -> on_grid limit i p q -> cycle < limit -> (ch = i -> tick q ch = cycle) ->
  pc (do_tick pp ch cycle q) (on_grid limit i p).
Proof.
  intros Hc G L E. eapply wpg_mono; [apply do_tick_pc; exact Hc|]. intros r T. destruct (Z.eq_dec i ch) as [D|D].
  - rewrite <- D in *. apply grid_tick with q; auto. rewrite E by reflexivity. exact L.
  - apply grid_other with ch q; auto.
Qed.

Lemma slope_grid ch cycle (b : bool) q (P : pokey -> Prop) (k : pokey -> outcome pokey) : channel_index ch -> on_grid limit i p q ->
  (forall r, on_grid limit i p r -> tick r i = tick q i -> pc (k r) P) -> pc (r <- (if b then slope pp ch cycle q else Ok q) ;; k r) P.
Proof.
  intros Hc G K. apply wpg_bind. destruct b; [|apply K; auto].
  eapply wpg_mono; [apply slope_pc; exact Hc|]. intros r [S T]. apply K; [apply grid_keep with q; auto|auto].
Qed.

(* a restart of another channel *)
Lemma restart_grid ch f q : channel_index ch -> i <> ch -> (forall c, ch_audf (f c) = ch_audf c /\ ch_periodCycles (f c) = ch_periodCycles c) ->
  on_grid limit i p q -> on_grid limit i p (upd_chan ch f q) /\ tick (upd_chan ch f q) i = tick q i.
Proof.
  intros Hc N F G. assert (T : tick (upd_chan ch f q) i = tick q i) by now apply tick_other.
  split; [|exact T]. apply grid_keep with q; auto. now apply same_upd.
Qed.

Lemma restarted_same q : same_tuning p q -> restarted q i = false.
Proof. intros (_ & A & S & _). unfold restarted in *. now rewrite A, S. Qed.

Lemma step_grid q : on_grid limit i p q -> pc (generate_step pp limit q) (fun x => match x with inl r => on_grid limit i p r | inr r => on_grid limit i p r end).
Proof.
  intros G. unfold generate_step. cbv zeta. destruct (next_tick_low limit q) as (M1 & M2).
  destruct (next_tick limit q =? limit) eqn:E; [exact G|]. set (cycle := next_tick limit q) in *. assert (L : cycle < limit) by lia.
  (* channel 2 *)
  apply wpg_bind. apply wpg_mono with (fun r => on_grid limit i p r).
  { unfold tick2. change (ch_tickCycle (pk_ch2 q)) with (tick q 2). destruct (Z.eqb_spec cycle (tick q 2)) as [C|C]; [|exact G].
    apply slope_grid; auto using ci0. intros r Gr Tr. apply tick_grid; auto using ci2. intros D. rewrite <- D in *. congruence. }
  clear G. intros q2 G.
  apply wpg_bind. apply wpg_mono with (fun r => on_grid limit i p r).
  { unfold tick3. change (ch_tickCycle (pk_ch3 q2)) with (tick q2 3). destruct (Z.eqb_spec cycle (tick q2 3)) as [C|C]; [|exact G].
    cbv zeta. set (q3 := if negb (Z.land (pk_audctl q2) 8 =? 0) then _ else q2).
    assert (G3 : on_grid limit i p q3 /\ tick q3 i = tick q2 i).
    { unfold q3. destruct (negb (Z.land (pk_audctl q2) 8 =? 0)) eqn:B; [|auto]. apply restart_grid; auto using ci2.
      intros D. pose proof (restarted_same q2 (proj1 G)) as R. unfold restarted in R. rewrite D in R. cbn [Z.eqb Pos.eqb] in R. rewrite (bit_test _ 3 8 eq_refl) in B by lia. now rewrite R in B. }
    destruct G3 as [G3 T3]. apply slope_grid; auto using ci1. intros r Gr Tr. apply tick_grid; auto using ci3. intros D. rewrite <- D in *. congruence. }
  clear G. intros q4 G.
  apply wpg_bind. apply wpg_mono with (fun r => on_grid limit i p r).
  { unfold tick0. change (ch_tickCycle (pk_ch0 q4)) with (tick q4 0). destruct (Z.eqb_spec cycle (tick q4 0)) as [C|C]; [|exact G].
    cbv zeta. set (q3 := if Z.land (pk_skctl q4) 136 =? 8 then _ else q4).
    assert (G3 : on_grid limit i p q3 /\ tick q3 i = tick q4 i).
    { unfold q3. destruct (Z.land (pk_skctl q4) 136 =? 8) eqn:B; [|auto]. apply restart_grid; auto using ci1.
      intros D. pose proof (restarted_same q4 (proj1 G)) as R. unfold restarted in R. rewrite D in R. cbn [Z.eqb Pos.eqb] in R.
      apply Z.eqb_eq in B. assert (B3 : Z.testbit (Z.land (pk_skctl q4) 136) 3 = true) by (rewrite B; reflexivity).
      assert (B7 : Z.testbit (Z.land (pk_skctl q4) 136) 7 = false) by (rewrite B; reflexivity). rewrite Z.land_spec in B3, B7.
      change (Z.testbit 136 3) with true in B3. change (Z.testbit 136 7) with true in B7. rewrite andb_true_r in B3, B7. now rewrite B3, B7 in R. }
    destruct G3 as [G3 T3]. apply tick_grid; auto using ci0. intros D. rewrite <- D in *. congruence. }
  clear G. intros q5 G.
  apply wpg_bind. apply wpg_mono with (fun r => on_grid limit i p r).
  { unfold tick1. change (ch_tickCycle (pk_ch1 q5)) with (tick q5 1). destruct (Z.eqb_spec cycle (tick q5 1)) as [C|C]; [|exact G].
    cbv zeta. set (q3 := if negb (Z.land (pk_audctl q5) 16 =? 0) then _ else _).
    assert (G3 : on_grid limit i p q3 /\ tick q3 i = tick q5 i).
    { unfold q3. rewrite (bit_test (pk_audctl q5) 4 16 eq_refl), (bit_test (pk_skctl q5) 3 8 eq_refl) by lia. pose proof (restarted_same q5 (proj1 G)) as R. unfold restarted in R.
      destruct (Z.testbit (pk_audctl q5) 4) eqn:B4; [|destruct (Z.testbit (pk_skctl q5) 3) eqn:B3; [|auto]];
        (apply restart_grid; auto using ci0; intros D; rewrite D in R; cbn [Z.eqb Pos.eqb orb] in R; discriminate). }
    destruct G3 as [G3 T3]. apply tick_grid; auto using ci1. intros D. rewrite <- D in *. congruence. }
  clear G. intros q6 G. exact G.
Qed.
End GRID.

Lemma generate_grid pp limit i p p' : channel_index i -> restarted p i = false -> generate_until pp limit p = Ok p' -> on_grid limit i p p'.
Proof.
  intros Hi NR H. apply (pc_ok (generate_until pp limit p) (on_grid limit i p) p'); [|exact H]. unfold generate_until, pc.
  apply (loopZ_wpg (fun _ => True) True (generate_step pp limit) (on_grid limit i p) (fun _ => 0)).
  - lia.
  - intros q G. eapply wpg_mono; [apply step_grid; eassumption|]. intros [r|r] Gr; auto.
  - split; [apply same_refl|]. exists 0. split; [lia|]. split; [lia|now left].
  - auto.
Qed.

Lemma generate_tuning pp limit p p' : generate_until pp limit p = Ok p' -> same_tuning p p'.
Proof. intros H. apply (generate_grid pp limit 3 p p' ci3 eq_refl H). Qed.

(* nothing is pending afterwards *)
Lemma generate_limit pp limit p p' i : channel_index i -> generate_until pp limit p = Ok p' -> limit <= tick p' i.
Proof.
  intros Hi H. apply (pc_ok (generate_until pp limit p) (fun q => limit <= tick q i) p'); [|exact H]. unfold generate_until, pc.
  apply (loopZ_wpg (fun _ => True) True (generate_step pp limit) (fun _ => True) (fun _ => 0)); auto; [lia|].
  intros q _. unfold generate_step. cbv zeta. destruct (next_tick_low limit q) as (M1 & M2).
  destruct (Z.eqb_spec (next_tick limit q) limit) as [E|E]; [cbn; rewrite <- E; auto|].
  do 4 (apply wpg_bind; match goal with |- wpg _ _ ?m _ => destruct m end; cbn [wpg]; [|now auto..]). cbn. auto.
Qed.

Lemma ticks_periodic pp limit i p p' : channel_index i -> restarted p i = false -> 0 < period p i -> generate_until pp limit p = Ok p' ->
  tick p' i = first_from limit (period p i) (tick p i).
Proof.
  intros Hi NR P H. destruct (generate_grid pp limit i p p' Hi NR H) as (_ & k & K0 & K & K1).
  pose proof (generate_limit pp limit p p' i Hi H) as L. unfold first_from. destruct (Z.leb_spec limit (tick p i)) as [C|C].
  - destruct K1 as [-> |K1]; [lia|]. assert (k * period p i < period p i) by lia. assert (k < 1) by (apply Z.mul_lt_mono_pos_r with (period p i); lia). assert (k = 0) as -> by lia. lia.
  - rewrite K. f_equal. f_equal. set (d := limit - tick p i) in *.
    assert (A : d <= k * period p i) by lia. assert (B : (k - 1) * period p i < d) by (destruct K1 as [-> |K1]; [lia|lia]).
    apply Z.div_unique with (d + period p i - 1 - period p i * k); lia.
Qed.

(* ---- periods ---- *)
Record tuned_as (reg : Z -> Z) (p : pokey) : Prop := {
  ta_bytes : forall a, byte (reg a);
  ta_f0 : ch_audf (pk_ch0 p) = reg 0;
  ta_f1 : ch_audf (pk_ch1 p) = reg 2;
  ta_f2 : ch_audf (pk_ch2 p) = reg 4;
  ta_f3 : ch_audf (pk_ch3 p) = reg 6;
  ta_ctl : pk_audctl p = reg 8;
  ta_div : pk_divCycles p = base_clock (reg 8);
  ta_p0 : ch_periodCycles (pk_ch0 p) = channel_period reg 0;
  ta_p1 : ch_periodCycles (pk_ch1 p) = channel_period reg 1;
  ta_p2 : ch_periodCycles (pk_ch2 p) = channel_period reg 2;
  ta_p3 : ch_periodCycles (pk_ch3 p) = channel_period reg 3;
  ta_r1 : Z.testbit (reg 8) 4 = true -> pk_reloadCycles1 p = counter (Z.testbit (reg 8) 6) (reg 8) (reg 0);
  ta_r3 : Z.testbit (reg 8) 3 = true -> pk_reloadCycles3 p = counter (Z.testbit (reg 8) 5) (reg 8) (reg 4)
}.

Lemma tuned_same reg p p' : same_tuning p p' -> tuned_as reg p -> tuned_as reg p'.
Proof.
  intros (C & A & _ & D & R1 & R3) [].
  destruct (C 0 ci0) as [C0 P0], (C 1 ci1) as [C1 P1], (C 2 ci2) as [C2 P2], (C 3 ci3) as [C3 P3]. cbn in C0, C1, C2, C3, P0, P1, P2, P3.
  constructor; congruence || (intros B; rewrite ?R1, ?R3; auto).
Qed.

Lemma chans_same p p' : (forall i, channel_index i -> ch_audf (chan p' i) = ch_audf (chan p i) /\ ch_periodCycles (chan p' i) = ch_periodCycles (chan p i)) ->
  pk_audctl p' = pk_audctl p -> pk_skctl p' = pk_skctl p -> pk_divCycles p' = pk_divCycles p -> pk_reloadCycles1 p' = pk_reloadCycles1 p ->
  pk_reloadCycles3 p' = pk_reloadCycles3 p -> same_tuning p p'.
Proof. repeat split; auto; now apply H. Qed.

Definition bits80 (v : Z) : bool :=
  (Z.land v 80 =? (if Z.testbit v 6 then 64 else 0) + (if Z.testbit v 4 then 16 else 0))
  && (Z.land v 40 =? (if Z.testbit v 5 then 32 else 0) + (if Z.testbit v 3 then 8 else 0)).
Lemma bits80_ok : forallb bits80 (zrange 256) = true. Proof. vm_compute. reflexivity. Qed.
Lemma land80 v : byte v -> Z.land v 80 = (if Z.testbit v 6 then 64 else 0) + (if Z.testbit v 4 then 16 else 0).
Proof. intros H. pose proof (forallb_zrange _ _ bits80_ok v ltac:(unfold byte in H; lia)) as K. unfold bits80 in K. lia. Qed.
Lemma land40 v : byte v -> Z.land v 40 = (if Z.testbit v 5 then 32 else 0) + (if Z.testbit v 3 then 8 else 0).
Proof. intros H. pose proof (forallb_zrange _ _ bits80_ok v ltac:(unfold byte in H; lia)) as K. unfold bits80 in K. lia. Qed.


Lemma tuned_ext reg reg' p : (forall a, reg' a = reg a) -> tuned_as reg p -> tuned_as reg' p.
Proof.
  intros E []. assert (C : forall i, channel_period reg' i = channel_period reg i) by (intros i; unfold channel_period; now rewrite !E).
  constructor; intros; rewrite ?C, ?E in *; auto.
Qed.

Definition wrote (reg : Z -> Z) (n data : Z) : Z -> Z := fun a => if a =? n then data else reg a.
Lemma wrote_same reg n data p : reg n = data -> tuned_as reg p -> tuned_as (wrote reg n data) p.
Proof. intros E. apply tuned_ext. intros a. unfold wrote. destruct (Z.eqb_spec a n) as [-> |]; auto. Qed.

Lemma shl8 x : Z.shiftl x 8 = 256 * x. Proof. rewrite Z.shiftl_mul_pow2 by lia. change (2 ^ 8) with 256. lia. Qed.

Ltac regs := unfold wrote, channel_period, counter, counter16, counter_low, base_clock in *; cbn [Z.eqb Pos.eqb] in *.
Ltac tuned_case T := destruct T as [Tb Tf0 Tf1 Tf2 Tf3 Tc Td Tp0 Tp1 Tp2 Tp3 Tr1 Tr3].
Ltac proj := cbn [chan upd_chan set_chan pk_ch0 pk_ch1 pk_ch2 pk_ch3 pk_audctl pk_divCycles pk_reloadCycles1 pk_reloadCycles3 ch_audf ch_periodCycles set_pk_ch0 set_pk_ch1 set_pk_ch2 set_pk_ch3
       set_ch_audf set_ch_periodCycles set_period set_pk_reloadCycles1 set_pk_reloadCycles3 set_pk_audctl set_pk_divCycles Z.eqb Pos.eqb].
Ltac close := first [ assumption | let a := fresh in intros a; destruct (a =? _); auto; fail | let K := fresh in intros K; discriminate K || auto; fail | lia ].
Lemma ok_inj {A} (a b : A) : Ok a = Ok b -> b = a. Proof. congruence. Qed.
Ltac finish E Tc Td Tf0 Tf1 Tf2 Tf3 :=
  cbn [Z.add Pos.add] in E; try discriminate E; apply ok_inj in E; subst; rewrite ?shl8; constructor; proj;
  rewrite ?Tc, ?Td, ?Tf0, ?Tf1, ?Tf2, ?Tf3; try reflexivity.

Lemma bind_ok {A C} (m : outcome A) (k : A -> outcome C) c : bind m k = Ok c -> exists a, m = Ok a /\ k a = Ok c.
Proof. destruct m as [a| | |]; cbn; try discriminate. eauto. Qed.

Ltac start T H G q f ta :=
  match type of H with (if ?d =? ?x then _ else _) = _ => let E := fresh in destruct (Z.eqb_spec d x) as [E|_];
    [injection H as <-; apply wrote_same; [now rewrite E, (ta _ _ T)|exact T]|] end;
  apply bind_ok in H; destruct H as (q & G & H); apply (tuned_same _ _ _ (generate_tuning _ _ _ _ G)) in T; clear G; cbv zeta in H.

Lemma audf0_tuned reg data cycle pp p p' : byte data -> tuned_as reg p -> poke_audf0 data cycle pp p = Ok p' -> tuned_as (wrote reg 0 data) p'.
Proof.
  intros Hd T H. unfold poke_audf0 in H. start T H G q f ta_f0.
  tuned_case T. pose proof (land80 (reg 8) (Tb 8)) as L.
  replace (pk_audctl (upd_chan 0 (set_ch_audf data) q)) with (reg 8) in H by (rewrite <- Tc; reflexivity). rewrite L in H. clear L. 
  destruct (Z.testbit (reg 8) 6) eqn:B6, (Z.testbit (reg 8) 4) eqn:B4; finish H Tc Td Tf0 Tf1 Tf2 Tf3; regs; rewrite ?B6, ?B4 in *; try close.
Qed.

Lemma audf1_tuned reg data cycle pp p p' : byte data -> tuned_as reg p -> poke_audf1 data cycle pp p = Ok p' -> tuned_as (wrote reg 2 data) p'.
Proof.
  intros Hd T H. unfold poke_audf1 in H. start T H G q f ta_f1.
  tuned_case T. pose proof (land80 (reg 8) (Tb 8)) as L.
  replace (pk_audctl (upd_chan 1 (set_ch_audf data) q)) with (reg 8) in H by (rewrite <- Tc; reflexivity). rewrite L in H. clear L. 
  destruct (Z.testbit (reg 8) 6) eqn:B6, (Z.testbit (reg 8) 4) eqn:B4; finish H Tc Td Tf0 Tf1 Tf2 Tf3; regs; rewrite ?B6, ?B4 in *; try close.
Qed.

Lemma audf2_tuned reg data cycle pp p p' : byte data -> tuned_as reg p -> poke_audf2 data cycle pp p = Ok p' -> tuned_as (wrote reg 4 data) p'.
Proof.
  intros Hd T H. unfold poke_audf2 in H. start T H G q f ta_f2.
  tuned_case T. pose proof (land40 (reg 8) (Tb 8)) as L.
  replace (pk_audctl (upd_chan 2 (set_ch_audf data) q)) with (reg 8) in H by (rewrite <- Tc; reflexivity). rewrite L in H. clear L. 
  destruct (Z.testbit (reg 8) 5) eqn:B6, (Z.testbit (reg 8) 3) eqn:B4; finish H Tc Td Tf0 Tf1 Tf2 Tf3; regs; rewrite ?B6, ?B4 in *; try close.
Qed.

Lemma audf3_tuned reg data cycle pp p p' : byte data -> tuned_as reg p -> poke_audf3 data cycle pp p = Ok p' -> tuned_as (wrote reg 6 data) p'.
Proof.
  intros Hd T H. unfold poke_audf3 in H. start T H G q f ta_f3.
  tuned_case T. pose proof (land40 (reg 8) (Tb 8)) as L.
  replace (pk_audctl (upd_chan 3 (set_ch_audf data) q)) with (reg 8) in H by (rewrite <- Tc; reflexivity). rewrite L in H. clear L. 
  destruct (Z.testbit (reg 8) 5) eqn:B6, (Z.testbit (reg 8) 3) eqn:B4; finish H Tc Td Tf0 Tf1 Tf2 Tf3; regs; rewrite ?B6, ?B4 in *; try close.
Qed.

Lemma mute_same c b m cycle : ch_audf (set_mute b m cycle c) = ch_audf c /\ ch_periodCycles (set_mute b m cycle c) = ch_periodCycles c.
Proof. unfold set_mute. repeat match goal with |- context [if ?b then _ else _] => destruct b end; cbn; auto. Qed.

Lemma upd4_same f0 f1 f2 f3 p :
  (forall c, ch_audf (f0 c) = ch_audf c /\ ch_periodCycles (f0 c) = ch_periodCycles c) -> (forall c, ch_audf (f1 c) = ch_audf c /\ ch_periodCycles (f1 c) = ch_periodCycles c) ->
  (forall c, ch_audf (f2 c) = ch_audf c /\ ch_periodCycles (f2 c) = ch_periodCycles c) -> (forall c, ch_audf (f3 c) = ch_audf c /\ ch_periodCycles (f3 c) = ch_periodCycles c) ->
  same_tuning p (upd_chan 3 f3 (upd_chan 2 f2 (upd_chan 1 f1 (upd_chan 0 f0 p)))).
Proof.
  intros H0 H1 H2 H3. eapply same_trans; [apply same_upd; [apply ci0|exact H0]|]. eapply same_trans; [apply same_upd; [apply ci1|exact H1]|].
  eapply same_trans; [apply same_upd; [apply ci2|exact H2]|]. apply same_upd; [apply ci3|exact H3].
Qed.

Lemma init_mute_same cycle p : same_tuning p (init_mute cycle p).
Proof. unfold init_mute. cbv zeta. apply upd4_same; intros c; apply mute_same. Qed.

Lemma audctl_tuned reg data cycle pp p p' : byte data -> tuned_as reg p -> poke_audctl data cycle pp p = Ok p' -> tuned_as (wrote reg 8 data) p'.
Proof.
  intros Hd T H. unfold poke_audctl in H. start T H G q f ta_ctl.
  apply bind_ok in H. destruct H as (q1 & H1 & H). apply bind_ok in H. destruct H as (q2 & H2 & H). apply ok_inj in H. subst p'.
  apply (tuned_same _ _ _ (init_mute_same cycle q2)). tuned_case T. unfold audctl_pair0 in H1. unfold audctl_pair2 in H2. cbv zeta in H1, H2.
  rewrite land80 in H1 by exact Hd. rewrite land40 in H2 by exact Hd. rewrite (bit_test data 0 1 eq_refl) in H1 by lia.
  revert H1 H2.
  destruct (Z.testbit data 6) eqn:B6, (Z.testbit data 4) eqn:B4; cbn [Z.add Pos.add]; intros H1; apply ok_inj in H1; subst q1;
  destruct (Z.testbit data 5) eqn:B5, (Z.testbit data 3) eqn:B3; cbn [Z.add Pos.add]; intros H2; apply ok_inj in H2; subst q2; rewrite ?shl8;
  constructor; proj; rewrite ?Tc, ?Td, ?Tf0, ?Tf1, ?Tf2, ?Tf3; regs; rewrite ?B6, ?B4, ?B5, ?B3 in *; try reflexivity; try close.
Qed.

(* ---- the other registers ---- *)
Definition inert (n : Z) : Prop := n <> 0 /\ n <> 2 /\ n <> 4 /\ n <> 6 /\ n <> 8.
Lemma wrote_inert reg n data p : byte data -> inert n -> tuned_as reg p -> tuned_as (wrote reg n data) p.
Proof.
  intros Hd (N0 & N2 & N4 & N6 & N8) T. tuned_case T.
  assert (R : forall k, k <> n -> wrote reg n data k = reg k) by (intros k K; unfold wrote; destruct (Z.eqb_spec k n); [contradiction|reflexivity]).
  assert (C : forall i, channel_period (wrote reg n data) i = channel_period reg i) by (intros i; unfold channel_period; now rewrite !R by auto).
  constructor; rewrite ?C, ?R by auto; auto. intros a. unfold wrote. destruct (a =? n); auto.
Qed.

Lemma set_audc_same pp i data cycle p p' : channel_index i -> set_audc pp i data cycle p = Ok p' -> same_tuning p p'.
Proof.
  intros Hi H. unfold set_audc in H. destruct (_ =? data); [injection H as <-; apply same_refl|]. apply bind_ok in H. destruct H as (q & G & H).
  apply generate_tuning in G. cbv zeta in H. set (q1 := upd_chan i (set_ch_audc data) q) in *.
  assert (S1 : same_tuning p q1) by (eapply same_trans; [exact G|]; apply same_upd; [exact Hi|intros c; cbn; auto]).
  assert (FIN : forall v r, same_tuning p r -> same_tuning p (upd_chan i (set_ch_delta v) r)).
  { intros v r S. eapply same_trans; [exact S|]. apply same_upd; [exact Hi|intros c; cbn; auto]. }
  assert (ADD : forall (b : bool) d v, (r <- (if b then Ok q1 else add_delta pp cycle d q1) ;; Ok (upd_chan i (set_ch_delta v) r)) = Ok p' -> same_tuning p p').
  { intros b d v K. apply bind_ok in K. destruct K as (r & K1 & K2). apply ok_inj in K2. subst p'. apply FIN. destruct b.
    - apply ok_inj in K1. now subst r.
    - eapply same_trans; [exact S1|]. exact (proj1 (pc_ok _ _ _ (add_delta_pc pp cycle d q1) K1)). }
  destruct (negb (Z.land data 16 =? 0)); [eapply ADD; exact H|]. destruct (0 <? _); [eapply ADD; exact H|]. apply ok_inj in H. subst p'. now apply FIN.
Qed.

Lemma irqen_channel_same data cycle i next p t p' : channel_index i -> irqen_channel data cycle i (next, p) = Ok (t, p') -> same_tuning p p'.
Proof.
  intros Hi H. unfold irqen_channel in H. cbv zeta in H. destruct (negb _).
  - destruct (_ =? never); [|injection H as <- <-; apply same_refl]. apply bind_ok in H. destruct H as (v & _ & H).
    assert (p' = upd_chan i (set_ch_timerCycle v) p) as -> by congruence. apply same_upd; [exact Hi|intros c; cbn; auto].
  - assert (p' = upd_chan i (set_ch_timerCycle never) p) as -> by congruence. apply same_upd; [exact Hi|intros c; cbn; auto].
Qed.

Lemma irqst_same v p : same_tuning p (set_pk_irqst v p).
Proof. split; [|repeat split]. intros i Hi. channels Hi; cbn; auto. Qed.

Lemma irqen_same data cycle p t p' : poke_irqen data cycle p = Ok (t, p') -> same_tuning p p'.
Proof.
  intros H. unfold poke_irqen in H. cbv zeta in H. apply bind_ok in H. destruct H as ([t1 p1] & H1 & H). apply bind_ok in H. destruct H as ([t2 p2] & H2 & H).
  apply irqen_channel_same in H1; [|apply ci3]. apply irqen_channel_same in H2; [|apply ci1]. apply irqen_channel_same in H; [|apply ci0].
  eapply same_trans; [apply irqst_same|]. eapply same_trans; [exact H1|]. eapply same_trans; eassumption.
Qed.

(* everything but the value of SKCTL *)
Definition same_periods (p p' : pokey) : Prop :=
  (forall i, channel_index i -> ch_audf (chan p' i) = ch_audf (chan p i) /\ ch_periodCycles (chan p' i) = ch_periodCycles (chan p i))
  /\ pk_audctl p' = pk_audctl p /\ pk_divCycles p' = pk_divCycles p
  /\ pk_reloadCycles1 p' = pk_reloadCycles1 p /\ pk_reloadCycles3 p' = pk_reloadCycles3 p.
Lemma same_periods_of p p' : same_tuning p p' -> same_periods p p'.
Proof. intros (A & B & _ & C). repeat split; try apply C; try apply B; now apply A. Qed.
Lemma same_periods_trans a b c : same_periods a b -> same_periods b c -> same_periods a c.
Proof.
  intros (A1 & A2 & A4 & A5 & A6) (B1 & B2 & B4 & B5 & B6). split; [|intuition congruence].
  intros i Hi. destruct (A1 i Hi), (B1 i Hi). split; congruence.
Qed.
Lemma tuned_periods reg p p' : same_periods p p' -> tuned_as reg p -> tuned_as reg p'.
Proof.
  intros (C & A & D & R1 & R3) [].
  destruct (C 0 ci0) as [C0 P0], (C 1 ci1) as [C1 P1], (C 2 ci2) as [C2 P2], (C 3 ci3) as [C3 P3]. cbn in C0, C1, C2, C3, P0, P1, P2, P3.
  constructor; congruence || (intros B; rewrite ?R1, ?R3; auto).
Qed.

Lemma skctl_same data cycle pp p p' : poke_skctl data cycle pp p = Ok p' -> same_periods p p'.
Proof.
  intros H. unfold poke_skctl in H. destruct (data =? _); [injection H as <-; apply same_periods_of, same_refl|]. apply bind_ok in H. destruct H as (q & G & H).
  apply generate_tuning in G. cbv zeta in H. apply ok_inj in H. subst p'. eapply same_periods_trans; [apply same_periods_of; exact G|].
  match goal with |- context [set_pk_init _ ?x] => set (q1 := x) end. assert (S1 : same_periods q q1).
  { unfold q1. match goal with |- context [if ?b then _ else _] => destruct b end; (split; [|repeat split]; intros i Hi; channels Hi; cbn; auto). }
  eapply same_periods_trans; [exact S1|].
  assert (S2 : same_periods q1 (set_pk_init (Z.land data 3 =? 0) q1)) by (split; [|repeat split]; intros i Hi; channels Hi; cbn; auto).
  eapply same_periods_trans; [exact S2|]. apply same_periods_of. eapply same_trans; [apply init_mute_same|].
  eapply same_trans; [apply same_upd; [apply ci2|intros c; apply mute_same]|]. apply same_upd; [apply ci3|intros c; apply mute_same].
Qed.

Lemma poke_tuned reg pp addr data cycle p t p' : byte data -> tuned_as reg p -> pokey_poke pp addr data cycle p = Ok (t, p') -> tuned_as (written_reg reg addr data) p'.
Proof.
  intros Hd T H. unfold pokey_poke in H.
  assert (L : Z.land addr 15 = addr mod 16) by (change 15 with (Z.ones 4); rewrite Z.land_ones by lia; reflexivity).
  rewrite L in H. change (written_reg reg addr data) with (wrote reg (addr mod 16) data). set (n := addr mod 16) in *.
  assert (Hn : 0 <= n < 16) by (apply Z.mod_pos_bound; lia). clearbody n. clear L addr.
  assert (PL : forall m, plain m = Ok (t, p') -> m = Ok p') by (intros [x| | |]; cbn; congruence).
  assert (AUDC : forall i, channel_index i -> inert n -> plain (set_audc pp i data cycle p) = Ok (t, p') -> tuned_as (wrote reg n data) p').
  { intros i Hi N K. apply PL in K. apply wrote_inert; auto. apply (tuned_same reg p); auto. now apply set_audc_same in K. }
  assert (CASES : n = 0 \/ n = 1 \/ n = 2 \/ n = 3 \/ n = 4 \/ n = 5 \/ n = 6 \/ n = 7 \/ n = 8 \/ n = 9 \/ n = 10 \/ n = 11 \/ n = 12 \/ n = 13 \/ n = 14 \/ n = 15) by lia.
  destruct CASES as [->|[->|[->|[->|[->|[->|[->|[->|[->|[->|[->|[->|[->|[->|[->| ->]]]]]]]]]]]]]]].
  - apply PL in H. eapply audf0_tuned; eassumption.
  - apply (AUDC 0); [apply ci0|repeat split; discriminate|exact H].
  - apply PL in H. eapply audf1_tuned; eassumption.
  - apply (AUDC 1); [apply ci1|repeat split; discriminate|exact H].
  - apply PL in H. eapply audf2_tuned; eassumption.
  - apply (AUDC 2); [apply ci2|repeat split; discriminate|exact H].
  - apply PL in H. eapply audf3_tuned; eassumption.
  - apply (AUDC 3); [apply ci3|repeat split; discriminate|exact H].
  - apply PL in H. eapply audctl_tuned; eassumption.
  - assert (p' = for_channels (do_stimer cycle) p) as -> by congruence. apply wrote_inert; [exact Hd|repeat split; discriminate|].
    apply (tuned_same reg p); [|exact T]. apply upd4_same; intros c; unfold do_stimer; destruct (_ =? never); cbn; auto.
  - injection H as <- <-. apply wrote_inert; [exact Hd|repeat split; discriminate|exact T].
  - injection H as <- <-. apply wrote_inert; [exact Hd|repeat split; discriminate|exact T].
  - injection H as <- <-. apply wrote_inert; [exact Hd|repeat split; discriminate|exact T].
  - injection H as <- <-. apply wrote_inert; [exact Hd|repeat split; discriminate|exact T].
  - apply wrote_inert; [exact Hd|repeat split; discriminate|]. apply (tuned_same reg p); [|exact T]. now apply irqen_same in H.
  - apply PL in H. apply wrote_inert; [exact Hd|repeat split; discriminate|]. apply (tuned_periods reg p); [|exact T]. now apply skctl_same in H.
Qed.

Lemma start_frame_same p p' : start_frame p = Ok p' -> same_tuning p p'.
Proof.
  intros H. unfold start_frame in H. cbv zeta in H. apply bind_ok in H. destruct H as (l & _ & H). destruct (_ && _); [discriminate|].
  apply ok_inj in H. subst p'. split; [|repeat split]. intros i Hi. channels Hi; cbn; auto.
Qed.

Lemma check_timer_same cycle i next p t p' : channel_index i -> check_timer cycle i (next, p) = (t, p') -> same_tuning p p'.
Proof.
  intros Hi H. unfold check_timer in H. cbv zeta in H. destruct (_ <=? cycle).
  - match type of H with (_, ?x) = _ => assert (p' = x) as -> by congruence end. eapply same_trans; [apply irqst_same|]. apply same_upd; [exact Hi|intros c; cbn; auto].
  - assert (p' = p) as -> by congruence. apply same_refl.
Qed.

Theorem history_tuned reg p : history reg p -> tuned_as reg p.
Proof.
  induction 1 as [rate p0 p H|reg pp addr data cycle p t p' H IH Hd E|reg pp limit p p' H IH E|reg p p' H IH E|reg pp cycle p p' H IH E|reg cycle next p next' p' H IH E
    |reg mask p H IH|reg buffer off i f p b off' p' H IH E].
  - unfold pokey_initialize in H. cbv zeta in H. destruct (_ <? 0); [discriminate|]. destruct (rate =? 0); [discriminate|].
    apply start_frame_same in H. apply (tuned_same _ _ _ H). clear H. constructor; try reflexivity; try discriminate. intros a. unfold byte. lia.
  - eapply poke_tuned; eassumption.
  - apply (tuned_same reg p); [|exact IH]. now apply generate_tuning in E.
  - apply (tuned_same reg p); [|exact IH]. now apply start_frame_same.
  - apply (tuned_same reg p); [|exact IH]. unfold pokey_end_frame in E. apply bind_ok in E. destruct E as (q & G & E). cbv zeta in E. apply ok_inj in E. subst p'.
    apply generate_tuning in G. eapply same_trans; [exact G|]. match goal with |- context [set_pk_polyIndex ?x q] => set (v := x) end. eapply same_trans with (set_pk_polyIndex v q).
    + split; [|repeat split]. intros i Hi. channels Hi; cbn; auto.
    + apply upd4_same; intros c; destruct (_ =? never); cbn; auto.
  - apply (tuned_same reg p); [|exact IH]. unfold pokey_check_irq in E.
    destruct (check_timer cycle 3 (next, p)) as [t1 p1] eqn:E1. destruct (check_timer cycle 1 (t1, p1)) as [t2 p2] eqn:E2.
    apply check_timer_same in E1; [|apply ci3]. apply check_timer_same in E2; [|apply ci1]. apply check_timer_same in E; [|apply ci0].
    eapply same_trans; [exact E1|]. eapply same_trans; eassumption.
  - apply (tuned_same reg p); [|exact IH]. unfold pokey_mute. cbv zeta. apply upd4_same; intros c; apply mute_same.
  - apply (tuned_same reg p); [|exact IH]. unfold store_sample in E. apply bind_ok in E. destruct E as ([v q] & E1 & E). cbv zeta in E. apply bind_ok in E. destruct E as (l & _ & E).
    assert (p' = q) as -> by congruence. clear E. unfold next_sample in E1.
    repeat (apply bind_ok in E1; destruct E1 as (? & _ & E1)). match type of E1 with Ok (_, ?x) = _ => assert (q = x) as -> by congruence end.
    split; [|repeat split]. intros j Hj. channels Hj; cbn; auto.
Qed.

Lemma period_of_registers reg p i : history reg p -> channel_index i -> ch_periodCycles (chan p i) = channel_period reg i.
Proof. intros H Hi. apply history_tuned in H. channels Hi; apply H. Qed.

Lemma base_clock_pos v : 28 <= base_clock v. Proof. unfold base_clock. destruct (Z.testbit v 0); lia. Qed.
Lemma channel_period_pos reg i : (forall a, byte (reg a)) -> 4 <= channel_period reg i.
Proof.
  intros Hb. unfold channel_period, counter, counter16, counter_low. cbv zeta. pose proof (base_clock_pos (reg 8)).
  assert (B : forall a, 0 <= reg a) by (intros a; apply Hb). pose proof (B 0). pose proof (B 2). pose proof (B 4). pose proof (B 6).
  repeat match goal with |- context [if ?b then _ else _] => destruct b end; nia.
Qed.

Lemma ticks_on_schedule reg pp limit p p' i : history reg p -> channel_index i -> restarted p i = false -> generate_until pp limit p = Ok p' ->
  ch_tickCycle (chan p' i) = first_from limit (channel_period reg i) (ch_tickCycle (chan p i)).
Proof.
  intros H Hi NR G. rewrite <- (period_of_registers reg p i H Hi). apply (ticks_periodic pp limit i p p'); auto. unfold period.
  rewrite (period_of_registers reg p i H Hi). apply history_tuned in H. pose proof (channel_period_pos reg i (ta_bytes _ _ H)). lia.
Qed.

(* ---- STIMER ---- *)
Lemma stimer_restarts reg pp addr data cycle p t p' i : history reg p -> channel_index i -> addr mod 16 = 9 -> pokey_poke pp addr data cycle p = Ok (t, p') ->
  ch_tickCycle (chan p' i) = if ch_tickCycle (chan p i) =? never then never else cycle + channel_period reg i.
Proof.
  intros H Hi Ha E. rewrite <- (period_of_registers reg p i H Hi). unfold pokey_poke in E.
  assert (L : Z.land addr 15 = addr mod 16) by (change 15 with (Z.ones 4); rewrite Z.land_ones by lia; reflexivity).
  rewrite L, Ha in E. assert (p' = for_channels (do_stimer cycle) p) as -> by congruence. unfold for_channels, do_stimer.
  destruct (Z.eqb_spec (ch_tickCycle (chan p i)) never) as [N|N]; channels Hi; cbn [chan upd_chan set_chan pk_ch0 pk_ch1 pk_ch2 pk_ch3 set_pk_ch0 set_pk_ch1 set_pk_ch2 set_pk_ch3 Z.eqb Pos.eqb] in *;
    rewrite ?N, ?Z.eqb_refl; try reflexivity; try assumption;
    match goal with |- context [ch_tickCycle ?c =? never] => destruct (Z.eqb_spec (ch_tickCycle c) never); [contradiction|reflexivity] end.
Qed.

(* ---- timer interrupts ---- *)
Lemma first_timer_first cycle period t r : 0 < period -> first_timer cycle period t = Ok r -> r = first_from cycle period t.
Proof.
  intros P H. set (G := fun x => exists k, 0 <= k /\ x = t + k * period /\ (k = 0 \/ x < cycle + period)).
  assert (K : G r /\ cycle <= r).
  { apply (pc_ok (first_timer cycle period t) (fun x => G x /\ cycle <= x) r); [|exact H]. unfold first_timer, pc.
    apply (loopZ_wpg (fun _ => True) True (first_timer_step cycle period) G (fun _ => 0)); auto; [lia| |].
    - intros x (k & K0 & K1 & K2). unfold first_timer_step. destruct (Z.ltb_spec x cycle) as [C|C]; cbn.
      + split; [|auto]. exists (k + 1). split; [lia|]. split; lia.
      + split; [|exact C]. exists k. auto.
    - exists 0. split; [lia|]. split; [lia|auto]. }
  destruct K as ((k & K0 & K & K1) & L). unfold first_from. destruct (Z.leb_spec cycle t) as [C|C].
  - destruct K1 as [-> |K1]; [lia|]. assert (k * period < period) by lia. assert (k < 1) by (apply Z.mul_lt_mono_pos_r with period; lia). assert (k = 0) as -> by lia. lia.
  - rewrite K. f_equal. f_equal. apply Z.div_unique with (cycle - t + period - 1 - period * k); [|lia].
    left. assert (k <> 0) by (intros ->; lia). destruct K1 as [K1|K1]; [contradiction|]. lia.
Qed.

Definition timer (p : pokey) (i : Z) : Z := ch_timerCycle (chan p i).

Lemma irqen_channel_spec data cycle i next p t p' : channel_index i -> 0 < period p i -> irqen_channel data cycle i (next, p) = Ok (t, p') ->
  timer p' i = (if negb (Z.land (Z.land data (pk_irqst p)) (i + 1) =? 0) then if timer p i =? never then first_from cycle (period p i) (tick p i) else timer p i else never)
  /\ (forall j, channel_index j -> j <> i -> timer p' j = timer p j) /\ (forall j, channel_index j -> tick p' j = tick p j /\ period p' j = period p j) /\ pk_irqst p' = pk_irqst p
  /\ t <= next /\ (negb (Z.land (Z.land data (pk_irqst p)) (i + 1) =? 0) = true -> timer p i = never -> t <= timer p' i).
Proof.
  intros Hi P H. unfold irqen_channel in H. cbv zeta in H.
  assert (U : forall v, timer (upd_chan i (set_ch_timerCycle v) p) i = v /\ (forall j, channel_index j -> j <> i -> timer (upd_chan i (set_ch_timerCycle v) p) j = timer p j)
      /\ (forall j, channel_index j -> tick (upd_chan i (set_ch_timerCycle v) p) j = tick p j /\ period (upd_chan i (set_ch_timerCycle v) p) j = period p j)
      /\ pk_irqst (upd_chan i (set_ch_timerCycle v) p) = pk_irqst p).
  { intros v. unfold timer, tick, period. channels Hi; (split; [reflexivity|]; split; [|split; [|reflexivity]]; intros j Hj; channels Hj; intros; cbn; auto; try contradiction). }
  destruct (negb _).
  - fold (timer p i) in H. destruct (Z.eqb_spec (timer p i) never) as [N|N].
    + apply bind_ok in H. destruct H as (v & F & H). apply first_timer_first in F; [|exact P]. fold (tick p i) (period p i) in F.
      assert (p' = upd_chan i (set_ch_timerCycle v) p) as -> by congruence. assert (t = Z.min next v) as -> by congruence. destruct (U v) as (U1 & U2 & U3 & U4).
      rewrite U1. repeat split; auto; try apply U3; auto; try lia.
    + assert (p' = p) as -> by congruence. assert (t = next) as -> by congruence. repeat split; auto; try lia.
  - assert (p' = upd_chan i (set_ch_timerCycle never) p) as -> by congruence. assert (t = next) as -> by congruence. destruct (U never) as (U1 & U2 & U3 & U4).
    rewrite U1. repeat split; auto; try apply U3; auto; try lia; try discriminate.
Qed.

Lemma armed_land data irqst i : i = 0 \/ i = 1 \/ i = 3 ->
  negb (Z.land (Z.land data (Z.lor irqst (Z.lxor data 255))) (i + 1) =? 0) = armed data irqst i.
Proof.
  intros Hi. unfold armed, timer_bit. assert (K : forall n m, m = 2 ^ n -> 0 <= n < 8 -> negb (Z.land (Z.land data (Z.lor irqst (Z.lxor data 255))) m =? 0) = Z.testbit data n && Z.testbit irqst n).
  { intros n m -> Hn. rewrite (bit_test _ n (2 ^ n) eq_refl) by lia. rewrite Z.land_spec, Z.lor_spec, Z.lxor_spec.
    change 255 with (Z.ones 8). rewrite Z.ones_spec_low by lia. destruct (Z.testbit data n), (Z.testbit irqst n); reflexivity. }
  destruct Hi as [-> |[-> | ->]]; cbn [Z.eqb Pos.eqb Z.add Pos.add]; apply K; try reflexivity; lia.
Qed.

Lemma irqen_arms reg pp addr data cycle p t p' i : history reg p -> addr mod 16 = 14 -> pokey_poke pp addr data cycle p = Ok (t, p') -> i = 0 \/ i = 1 \/ i = 3 ->
  timer p' i = (if armed data (pk_irqst p) i then if timer p i =? never then first_from cycle (channel_period reg i) (tick p i) else timer p i else never)
  /\ (armed data (pk_irqst p) i = true -> timer p i = never -> t <= timer p' i).
Proof.
  intros H Ha E Hi. unfold pokey_poke in E.
  assert (L : Z.land addr 15 = addr mod 16) by (change 15 with (Z.ones 4); rewrite Z.land_ones by lia; reflexivity).
  rewrite L, Ha in E. unfold poke_irqen in E. cbv zeta in E. set (p0 := set_pk_irqst _ p) in E.
  assert (S0 : forall j, channel_index j -> timer p0 j = timer p j /\ tick p0 j = tick p j /\ period p0 j = period p j) by (intros j Hj; unfold timer, tick, period; channels Hj; cbn; auto).
  assert (Q0 : pk_irqst p0 = Z.lor (pk_irqst p) (Z.lxor data 255)) by reflexivity.
  assert (PER : forall j, channel_index j -> period p j = channel_period reg j /\ 0 < period p j).
  { intros j Hj. unfold period. rewrite (period_of_registers reg p j H Hj). split; [reflexivity|]. pose proof (channel_period_pos reg j (ta_bytes _ _ (history_tuned _ _ H))). lia. }
  clearbody p0. apply bind_ok in E. destruct E as ([t1 p1] & E1 & E). apply bind_ok in E. destruct E as ([t2 p2] & E2 & E).
  apply irqen_channel_spec in E1; [|apply ci3|destruct (S0 3 ci3) as (_ & _ & ->); apply PER, ci3]. destruct E1 as (A1 & B1 & C1 & D1 & F1 & G1).
  apply irqen_channel_spec in E2; [|apply ci1|destruct (C1 1 ci1) as (_ & ->), (S0 1 ci1) as (_ & _ & ->); apply PER, ci1]. destruct E2 as (A2 & B2 & C2 & D2 & F2 & G2).
  apply irqen_channel_spec in E; [|apply ci0|destruct (C2 0 ci0) as (_ & ->), (C1 0 ci0) as (_ & ->), (S0 0 ci0) as (_ & _ & ->); apply PER, ci0]. destruct E as (A3 & B3 & C3 & D3 & F3 & G3).
  rewrite D2, D1, Q0 in A3, G3. rewrite D1, Q0 in A2, G2. rewrite Q0 in A1, G1.
  rewrite armed_land in A1, G1, A2, G2, A3, G3 by auto.
  destruct (S0 0 ci0) as (S01 & S02 & S03), (S0 1 ci1) as (S11 & S12 & S13), (S0 3 ci3) as (S31 & S32 & S33).
  destruct (C1 0 ci0) as (C10 & C10'), (C2 0 ci0) as (C20 & C20'), (C1 1 ci1) as (C11 & C11').
  destruct Hi as [-> |[-> | ->]].
  - rewrite <- (proj1 (PER 0 ci0)). rewrite (B2 0 ci0), (B1 0 ci0), S01 in A3, G3 by lia. split; [rewrite A3, C20, C20', C10, C10', S02, S03; reflexivity|exact G3].
  - rewrite <- (proj1 (PER 1 ci1)). rewrite (B1 1 ci1), S11 in A2, G2 by lia. rewrite (B3 1 ci1) by lia. split; [rewrite A2, C11, C11', S12, S13; reflexivity|]. intros X Y. specialize (G2 X Y). lia.
  - rewrite <- (proj1 (PER 3 ci3)). rewrite S31 in A1, G1. rewrite (B3 3 ci3), (B2 3 ci3) by lia. split; [rewrite A1, S32, S33; reflexivity|]. intros X Y. specialize (G1 X Y). lia.
Qed.

(* ---- witnesses ---- *)
Definition write_all (l : list (Z * Z * Z)) (m : outcome pokey) : outcome pokey :=
  fold_left (fun m '(addr, data, cycle) => p <- m ;; '(_, p) <- pokey_poke fresh_pair addr data cycle p ;; Ok p) l m.
Definition reg_of (l : list (Z * Z * Z)) : Z -> Z := fold_left (fun reg '(addr, data, _) => written_reg reg addr data) l (fun _ => 0).

Lemma write_all_bad l (m : outcome pokey) p : write_all l m = Ok p -> exists q, m = Ok q.
Proof.
  revert m. induction l as [|[[a d] c] l IH]; intros m H; [eauto|]. cbn in H. destruct (IH _ H) as (q & E). apply bind_ok in E. destruct E as (r & E & _). eauto.
Qed.

Lemma write_all_history l : forall reg p p', Forall (fun '(_, d, _) => byte d) l -> history reg p -> write_all l (Ok p) = Ok p' ->
  history (fold_left (fun reg '(addr, data, _) => written_reg reg addr data) l reg) p'.
Proof.
  induction l as [|[[a d] c] l IH]; intros reg p p' F H E; [injection E as <-; exact H|].
  change (write_all l (bind (Ok p) (fun p => bind (pokey_poke fresh_pair a d c p) (fun x => let (_, p) := x in Ok p))) = Ok p') in E. cbn [bind] in E.
  destruct (write_all_bad _ _ _ E) as (q & Q). rewrite Q in E. apply bind_ok in Q. destruct Q as ([t r] & P & Q). injection Q as ->.
  cbn [fold_left]. apply (IH _ q); [now inversion F|eapply h_write; [exact H|now inversion F|exact P]|exact E].
Qed.

(* AUDF1 = 0x20, AUDF2 = 3, AUDF3 = 7, AUDF4 = 9, AUDCTL: channels 1 and 2 linked, channel 3 on the fast clock, 15 kHz base clock *)
Definition tune : list (Z * Z * Z) := [(15, 3, 5); (0, 32, 10); (2, 3, 14); (4, 7, 18); (6, 9, 22); (8, 49, 26)].
Lemma tune_periods : result (fun p => map ch_periodCycles [pk_ch0 p; pk_ch1 p; pk_ch2 p; pk_ch3 p]) (write_all tune started) = Some [29184; 91314; 11; 1140].
Proof. vm_compute. reflexivity. Qed.
Lemma tune_spec : map (channel_period (reg_of tune)) [0; 1; 2; 3] = [29184; 91314; 11; 1140].
Proof. vm_compute. reflexivity. Qed.
Lemma tune_ticks : result (fun p => map ch_tickCycle [pk_ch0 p; pk_ch1 p; pk_ch2 p; pk_ch3 p]) (write_all tune started) = Some [26; 26; 26; 26]
  /\ result (fun p => map ch_tickCycle [pk_ch0 p; pk_ch1 p; pk_ch2 p; pk_ch3 p]) (p <- write_all tune started ;; generate_until fresh_pair 1000 p) = Some [3788; 91340; 1005; 1166].
Proof. vm_compute. split; reflexivity. Qed.
