(* Noise output, mixing, termination and sample formats *)
From Verif Require Import Base BaseFacts Loop MemModel InfoModel InfoProofs PokeyModel MachineModel CpuProofs PokeyProofs MachineProofs FrameProofs NoiseSpec NoiseProofs WriterProofs StoreProofs PlaySpec.

Ltac channels H := destruct H as [H | [H | [H | H]]]; try subst.

(* ---- the output of a channel ---- *)
Definition audc_facts (v : Z) : bool :=
  Bool.eqb (Z.land v 176 =? 160) (Z.testbit v 7 && Z.testbit v 5 && negb (Z.testbit v 4))
  && Bool.eqb (Z.land v 16 =? 0) (negb (Z.testbit v 4)) && Bool.eqb (v <? 128) (negb (Z.testbit v 7))
  && Bool.eqb (Z.land v 32 =? 0) (negb (Z.testbit v 5)) && Bool.eqb (Z.land v 64 =? 0) (negb (Z.testbit v 6)).
Lemma audc_facts_ok : forallb audc_facts (zrange 256) = true. Proof. vm_compute. reflexivity. Qed.

Definition poly5_fact (i : Z) : bool := Bool.eqb (Z.land 1706902752 (Z.shiftl 1 i) =? 0) (register 5 2 i mod 2 =? 1).
Lemma poly5_ok : forallb poly5_fact (zrange 31) = true. Proof. vm_compute. reflexivity. Qed.
Definition poly4_fact (i : Z) : bool := Z.land (Z.shiftr 21360 i) 1 =? 1 - register 4 1 i mod 2.
Lemma poly4_ok : forallb poly4_fact (zrange 15) = true. Proof. vm_compute. reflexivity. Qed.
Lemma sweep (n : nat) (p : Z -> bool) : forallb p (zrange n) = true -> forall v, 0 <= v < Z.of_nat n -> p v = true.
Proof. intros H v Hv. eapply forallb_forall in H; [exact H|]. now apply zrange_In. Qed.

Lemma poly5_bit n : 0 <= n -> (Z.land 1706902752 (Z.shiftl 1 (Z.rem n 31)) =? 0) = (noise 5 2 n =? 1).
Proof.
  intros H. rewrite Z.rem_mod_nonneg by lia. unfold noise. rewrite (mod5 n H). apply eqb_prop. apply (sweep 31 poly5_fact poly5_ok). lia.
Qed.
Lemma poly4_bit n : 0 <= n -> Z.land (Z.shiftr 21360 (Z.rem n 15)) 1 = 1 - noise 4 1 n.
Proof.
  intros H. rewrite Z.rem_mod_nonneg by lia. unfold noise. rewrite (mod4 n H). apply Z.eqb_eq. apply (sweep 15 poly4_fact poly4_ok). lia.
Qed.
Lemma land_1 v : Z.land v 1 = v mod 2.
Proof. change 1 with (2 ^ 1 - 1) at 1. now rewrite land_ones_mod by lia. Qed.
Lemma poly17_bit n : 0 <= n -> exists v, get poly17Lookup (Z.shiftr (Z.rem n 131071) 3) = Ok v /\ Z.land (Z.shiftr v (Z.land (Z.rem n 131071) 7)) 1 = noise 17 5 (n + 9).
Proof.
  intros H. destruct (poly17_bits n H) as (G & _ & L & E). eexists. split; [exact G|]. rewrite L, land_1, Z.shiftr_div_pow2 by lia. unfold noise.
  replace (register 17 5 (n + 9) mod 2) with ((register 17 5 (n + 9) mod 256) mod 2) by (generalize (register 17 5 (n + 9)); intros; lia). rewrite E.
  assert (K : 0 <= Z.rem n 131071 mod 8 <= 7) by lia. revert K. generalize (Z.rem n 131071 mod 8) (register 17 5 (8 * (Z.rem n 131071 / 8) + 9)). intros k r K.
  assert (KK : k = 0 \/ k = 1 \/ k = 2 \/ k = 3 \/ k = 4 \/ k = 5 \/ k = 6 \/ k = 7) by lia.
  repeat (destruct KK as [KK|KK]; [subst k; cbn; lia|]). subst k. cbn. lia.
Qed.

Definition anything : ub_reason -> Prop := fun _ => True.
Lemma slope_out pp i cycle p p' : channel_index i -> slope pp i cycle p = Ok p' -> ch_out (chan p' i) = ch_out (chan p i).
Proof.
  intros Hi E. pose proof (slope_ok anything True I pp i cycle p Hi (or_introl I) (or_introl I)) as W. rewrite E in W. cbn [wpg] in W.
  destruct W as (b & o & _ & ->). channels Hi; reflexivity.
Qed.

Lemma chan_out_upd i f p : channel_index i -> chan (upd_chan i f p) i = f (chan p i).
Proof. intros Hi. channels Hi; reflexivity. Qed.
Lemma upd_regs i f p : pk_init (upd_chan i f p) = pk_init p /\ pk_polyIndex (upd_chan i f p) = pk_polyIndex p /\ pk_audctl (upd_chan i f p) = pk_audctl p.
Proof. unfold upd_chan, set_chan. destruct (i =? 0), (i =? 1), (i =? 2); repeat split. Qed.

Lemma tick_output pp ch cycle p p' : channel_index ch -> chan_ok (chan p ch) -> byte (pk_audctl p) -> 0 <= cycle + pk_polyIndex p - ch ->
  do_tick pp ch cycle p = Ok p' ->
  ch_out (chan p' ch) = next_output (ch_audc (chan p ch)) (pk_init p) (Z.testbit (pk_audctl p) 7) (cycle + pk_polyIndex p - ch) (ch_out (chan p ch)).
Proof.
  intros Hi C BA N. unfold do_tick. cbv zeta. set (q := upd_chan ch _ p).
  assert (Q : chan q ch = set_ch_tickCycle (ch_tickCycle (chan p ch) + ch_periodCycles (chan p ch)) (chan p ch)) by (unfold q; rewrite chan_out_upd by exact Hi; reflexivity).
  destruct (upd_regs ch (fun c => set_ch_tickCycle (ch_tickCycle c + ch_periodCycles c) c) p) as (Q1 & Q2 & Q3). fold q in Q1, Q2, Q3.
  rewrite Q1, Q2, Q3. assert (QA : ch_audc (chan q ch) = ch_audc (chan p ch)) by now rewrite Q. assert (QO : ch_out (chan q ch) = ch_out (chan p ch)) by now rewrite Q.
  rewrite QA, QO. clearbody q. clear Q Q1 Q2 Q3 QA. pose proof (co_audc _ C) as BC. pose proof (co_out _ C) as BO.
  pose proof (byte_sweep _ audc_facts_ok _ BC) as F. unfold audc_facts in F. rewrite !andb_true_iff, !eqb_true_iff in F. destruct F as ((((F1 & F2) & F3) & F4) & F5).
  pose proof (byte_sweep _ audc_facts_ok _ BA) as FA. unfold audc_facts in FA. rewrite !andb_true_iff, !eqb_true_iff in FA. destruct FA as ((((_ & _) & FA) & _) & _).
  set (n := cycle + pk_polyIndex p - ch) in *. set (out := ch_out (chan p ch)) in *.
  assert (FL : forall v p2, slope pp ch cycle (upd_chan ch (set_ch_out v) q) = Ok p2 -> ch_out (chan p2 ch) = v).
  { intros v p2 E. rewrite (slope_out _ _ _ _ _ Hi E). now rewrite chan_out_upd. }
  assert (X : Z.lxor out 1 = 1 - out) by (destruct BO as [-> | ->]; reflexivity).
  unfold next_output. cbv zeta. rewrite F1, F2, F3, F4, F5. rewrite X, FA. clear F1 F2 F3 F4 F5 FA C BC BA X.
  generalize (Z.testbit (ch_audc (chan p ch)) 4) (Z.testbit (ch_audc (chan p ch)) 5) (Z.testbit (ch_audc (chan p ch)) 6) (Z.testbit (ch_audc (chan p ch)) 7)
    (pk_init p) (Z.testbit (pk_audctl p) 7). intros b4 b5 b6 b7 init poly9.
  assert (S31 : shift_count (Z.rem n 31) = Ok (Z.rem n 31)) by (unfold shift_count; rewrite Z.rem_mod_nonneg by lia; destruct (Z.ltb_spec (n mod 31) 0); [lia|reflexivity]).
  assert (S15 : shift_count (Z.rem n 15) = Ok (Z.rem n 15)) by (unfold shift_count; rewrite Z.rem_mod_nonneg by lia; destruct (Z.ltb_spec (n mod 15) 0); [lia|reflexivity]).
  rewrite S31, S15. cbn [bind]. rewrite (poly5_bit n N).
  set (newOut := if negb (negb b6) then _ else _).
  assert (NO : exists v, newOut = Ok v /\ Z.land v 1 = if b6 then 1 - noise 4 1 n else if poly9 then noise 9 5 (n + 1) else noise 17 5 (n + 9)).
  { unfold newOut. destruct b6; cbn [negb].
    - eexists. split; [reflexivity|]. now apply poly4_bit.
    - destruct poly9; cbn [negb].
      + rewrite get_poly9 by exact N. eexists. split; [reflexivity|]. rewrite land_1. unfold noise. generalize (register 9 5 (n + 1)). intros; lia.
      + destruct (poly17_bit n N) as (v & G & E). rewrite G. cbn [bind]. eexists. split; [reflexivity|exact E]. }
  destruct NO as (v & E & Ev). rewrite E. cbn [bind]. rewrite Ev. clear E Ev newOut S31 S15.
  assert (NB : forall b : bool, (if b then Ok true else Ok false) = Ok b) by (intros []; reflexivity).
  destruct b4; cbn [negb andb orb].
  { rewrite andb_false_r. intros H. injection H as <-. exact QO. }
  rewrite andb_true_r. destruct (b7 && b5) eqn:Eb.
  { apply andb_true_iff in Eb. destruct Eb as [-> ->]. cbn [negb andb]. rewrite andb_false_r. intros H. now apply FL in H. }
  destruct init; cbn [andb negb]; [intros H; injection H as <-; exact QO|].
  destruct b7; cbn [negb andb bind] in *.
  - subst b5. cbn [negb]. destruct (out =? _) eqn:Eo; intros H; [injection H as <-; rewrite QO; lia|]. now apply FL in H.
  - destruct (noise 5 2 n =? 1); [intros H; injection H as <-; exact QO|]. destruct b5; cbn [negb]; [intros H; now apply FL in H|].
    destruct (out =? _) eqn:Eo; intros H; [injection H as <-; rewrite QO; lia|]. now apply FL in H.
Qed.

(* ---- noise across frames ---- *)
Lemma live_anything pp limit p : pokey_ok p -> live anything (fun _ _ _ => True) pp limit p.
Proof. intros H. constructor; [exact H|left; exact I|left; exact I|exact I]. Qed.

Lemma register_multiple w t n k : In (w, t) registers -> 0 <= n -> 0 <= k -> register w t (n + k * (2 ^ w - 1)) = register w t n.
Proof. intros H. apply maximal_length. exact H. Qed.

Lemma noise_continues pp cycle p p' : pokey_ok p -> 0 <= cycle -> pokey_end_frame pp cycle p = Ok p' ->
  0 <= pk_polyIndex p' /\
  forall c, 0 <= c ->
    let n' := pk_polyIndex p' + c in let n := pk_polyIndex p + cycle + c in
    register 4 1 n' = register 4 1 n /\ register 5 2 n' = register 5 2 n /\
    (if Z.testbit (pk_audctl p) 7 then register 9 5 n' = register 9 5 n else register 17 5 n' = register 17 5 n).
Proof.
  intros H Hc E. unfold pokey_end_frame in E.
  pose proof (generate_until_ok anything True I (fun _ _ _ => True) pp cycle p Hc (live_anything _ _ _ H)) as W.
  destruct (generate_until pp cycle p) as [q| | |]; cbn [bind] in E; try discriminate E. cbn [wpg] in W. destruct W as (_ & [_ _ _ _ R _] & _).
  destruct R as (A & _ & _ & _ & _ & _ & _ & PI & _). rewrite A, PI in E.
  assert (T : negb (Z.land (pk_audctl p) 128 =? 0) = Z.testbit (pk_audctl p) 7).
  { pose proof (byte_sweep (fun v => Bool.eqb (negb (Z.land v 128 =? 0)) (Z.testbit v 7)) ltac:(vm_compute; reflexivity) _ (po_audctl _ H)) as X. now apply eqb_prop in X. }
  rewrite T in E. cbv zeta in E.
  assert (P : pk_polyIndex p' = let m := if Z.testbit (pk_audctl p) 7 then 237615 else 60948015 in
            if 2 * m <=? pk_polyIndex p + cycle then pk_polyIndex p + cycle - m else pk_polyIndex p + cycle).
  { injection E as E. rewrite <- E. unfold for_channels. repeat (rewrite (proj1 (proj2 (upd_regs _ _ _)))). reflexivity. }
  clear E A PI T. cbv zeta in P. rewrite P. pose proof (po_poly _ H) as PP. clear P.
  destruct (Z.testbit (pk_audctl p) 7).
  - destruct (2 * 237615 <=? pk_polyIndex p + cycle) eqn:Q; (split; [lia|]); intros c C; cbv zeta; [|repeat split].
    set (n := pk_polyIndex p + cycle - 237615 + c). assert (N : 0 <= n) by (unfold n; lia).
    replace (pk_polyIndex p + cycle + c) with (n + 237615) by (unfold n; lia). clearbody n. split; [|split].
    + change 237615 with (15841 * (2 ^ 4 - 1)). symmetry. apply register_multiple; [cbn; auto|lia|lia].
    + change 237615 with (7665 * (2 ^ 5 - 1)). symmetry. apply register_multiple; [cbn; auto|lia|lia].
    + change 237615 with (465 * (2 ^ 9 - 1)). symmetry. apply register_multiple; [cbn; auto|lia|lia].
  - destruct (2 * 60948015 <=? pk_polyIndex p + cycle) eqn:Q; (split; [lia|]); intros c C; cbv zeta; [|repeat split].
    set (n := pk_polyIndex p + cycle - 60948015 + c). assert (N : 0 <= n) by (unfold n; lia).
    replace (pk_polyIndex p + cycle + c) with (n + 60948015) by (unfold n; lia). clearbody n. split; [|split].
    + change 60948015 with (4063201 * (2 ^ 4 - 1)). symmetry. apply register_multiple; [cbn; auto|lia|lia].
    + change 60948015 with (1966065 * (2 ^ 5 - 1)). symmetry. apply register_multiple; [cbn; auto|lia|lia].
    + change 60948015 with (465 * (2 ^ 17 - 1)). symmetry. apply register_multiple; [cbn; auto 6|lia|lia].
Qed.

(* ---- C27: ticks end ---- *)
Lemma generate_ends pp limit p : pokey_ok p -> 0 <= limit -> generate_until pp limit p <> OutOfFuel.
Proof.
  intros H Hl E. pose proof (generate_until_ok anything False I (fun _ _ _ => True) pp limit p Hl (live_anything _ _ _ H)) as W. rewrite E in W. exact W.
Qed.
Lemma generate_done pp limit p p' : pokey_ok p -> 0 <= limit -> generate_until pp limit p = Ok p' ->
  (forall i, channel_index i -> limit <= ch_tickCycle (chan p' i)) /\ pokey_ok p' /\ same_regs p p'.
Proof.
  intros H Hl E. pose proof (generate_until_ok anything True I (fun _ _ _ => True) pp limit p Hl (live_anything _ _ _ H)) as W. rewrite E in W.
  destruct W as (L & S & T). split; [exact T|]. split; [apply (lv_ok _ _ _ _ _ L)|exact S].
Qed.
Lemma poke_ends pp addr data cycle p : pokey_ok p -> byte data -> 0 <= cycle <= 100000 -> pokey_poke pp addr data cycle p <> OutOfFuel.
Proof.
  intros H Hd Hc E. pose proof (pokey_poke_ok anything False I (fun _ _ _ => True) pp addr data cycle cycle p Hd) as W.
  rewrite E in W. apply W; [exact Hc|lia|]. now apply live_anything.
Qed.

(* ---- C26: mixing ---- *)
(* what can happen to a chip between two initialisations; samples are taken from a buffer of [n] entries *)
Inductive chip_op := Write (addr data cycle : Z) | CheckIrq (cycle next : Z) | EndFrame (cycle : Z) | StartFrame | SamplesUsed (i : Z).
Definition op_ok (n : Z) (o : chip_op) : Prop :=
  match o with
  | Write _ data cycle => byte data /\ 0 <= cycle <= 100000
  | CheckIrq _ _ => True
  | EndFrame cycle => 0 <= cycle <= 100000
  | StartFrame => True
  | SamplesUsed i => 0 <= i <= n
  end.
Definition chip_run (pp : pokeyPair) (o : chip_op) (p : pokey) : outcome pokey :=
  match o with
  | Write addr data cycle => '(_, p) <- pokey_poke pp addr data cycle p ;; Ok p
  | CheckIrq cycle next => Ok (snd (pokey_check_irq cycle next p))
  | EndFrame cycle => pokey_end_frame pp cycle p
  | StartFrame => start_frame p
  | SamplesUsed i => Ok (set_pk_trailing i p)
  end.
Fixpoint chip_runs (pp : pokeyPair) (l : list chip_op) (p : pokey) : outcome pokey :=
  match l with [] => Ok p | o :: l => p <- chip_run pp o p ;; chip_runs pp l p end.

(* the sum of the volumes of the channels whose output is high *)
Definition high_volume (c : channel) : Z := if 0 <? ch_delta c then Z.land (ch_audc c) 15 else 0.
Definition total_volume (p : pokey) : Z := high_volume (pk_ch0 p) + high_volume (pk_ch1 p) + high_volume (pk_ch2 p) + high_volume (pk_ch3 p).

Definition no_read : ub_reason -> Prop := fun r => r <> UbRead.
Definition within (n : Z) : Z * Z -> Z -> Z -> Prop := fun _ m t => m = n /\ 0 <= t <= n.

Lemma chip_run_ok pp n o p : op_ok n o -> live no_read (within n) pp 100000 p ->
  wpg no_read True (chip_run pp o p) (live no_read (within n) pp 100000).
Proof.
  assert (HO : no_read UbOverflow) by discriminate.
  intros V L. destruct o as [addr data cycle|cycle next|cycle| |i]; cbn [chip_run op_ok] in *.
  - apply wpg_bind. eapply wpg_mono.
    + apply (pokey_poke_ok no_read True HO (within n) pp addr data cycle 100000 p); [tauto|unfold short; tauto|lia|exact L].
    + intros [t q] [_ Lq]. exact Lq.
  - cbn [wpg]. now apply check_irq_ok.
  - apply (end_frame_ok no_read True HO (within n) pp cycle 100000 p); [exact V|lia|exact L].
  - apply (start_frame_ok no_read True (within n)); [|exact L].
    intros f m t [-> H]. split; [exact H|]. left. discriminate.
  - cbn [wpg]. destruct L as [L1 L2 L3 L4]. constructor; [destruct L1; constructor; assumption|left; discriminate| |].
    + destruct L3 as [L3|L3]; [left; exact L3|right; destruct L3; constructor; assumption].
    + destruct L4 as [L4 _]. split; [exact L4|exact V].
Qed.

Lemma chip_runs_ok pp n l : Forall (op_ok n) l -> forall p, live no_read (within n) pp 100000 p ->
  wpg no_read True (chip_runs pp l p) (live no_read (within n) pp 100000).
Proof.
  induction 1 as [|o l V _ IH]; intros p L; cbn [chip_runs]; [exact L|].
  apply wpg_bind. eapply wpg_mono; [apply (chip_run_ok pp n); assumption|]. exact IH.
Qed.

Lemma mixed_total p : mixed p -> pk_sumDACInputs p = total_volume p /\ 0 <= pk_sumDACInputs p <= 60.
Proof.
  intros [[_ H0] [_ H1] [_ H2] [_ H3] Hs]. unfold total_volume, high_volume. unfold volume_ok, level in *.
  pose proof (volume_range (ch_audc (pk_ch0 p))). pose proof (volume_range (ch_audc (pk_ch1 p))).
  pose proof (volume_range (ch_audc (pk_ch2 p))). pose proof (volume_range (ch_audc (pk_ch3 p))).
  destruct (0 <? ch_delta (pk_ch0 p)) eqn:E0, (0 <? ch_delta (pk_ch1 p)) eqn:E1, (0 <? ch_delta (pk_ch2 p)) eqn:E2, (0 <? ch_delta (pk_ch3 p)) eqn:E3; lia.
Qed.

Lemma initialized_live rate p0 p pp : pokey_initialize rate p0 = Ok p -> live no_read (within (len (pk_deltaBuffer p))) pp 100000 p.
Proof.
  unfold pokey_initialize. cbv zeta. destruct (_ <? 0) eqn:E; [discriminate|]. destruct (rate =? 0); [discriminate|].
  set (n := Z.quot (rate * 312 * 114) 1773447 + 32 + 2) in *. unfold start_frame. cbv zeta. cbn [pk_deltaBuffer pk_trailing].
  assert (L : len (repeat 0 (Z.to_nat n)) = n) by (unfold len; rewrite repeat_length; lia). rewrite L. rewrite get_range_ok by lia. cbn [bind].
  replace (n - n) with 0 by lia. cbn [Z.ltb Z.compare andb]. intros H. injection H as <-.
  set (b := _ ++ _). assert (LB : len b = n) by (unfold b; rewrite len_app, len_slice by lia; unfold len at 1; rewrite repeat_length; lia).
  assert (C : chan_ok channel_initialize) by (constructor; cbn; unfold byte, never; lia).
  constructor.
  - constructor; try exact C; cbn; unfold byte; lia.
  - left. discriminate.
  - right. constructor; try (split; reflexivity).
  - split; [reflexivity|]. cbn [pk_trailing set_pk_deltaBuffer pk_deltaBuffer]. rewrite LB. lia.
Qed.

Lemma mixing rate p0 p pp l : pokey_initialize rate p0 = Ok p -> Forall (op_ok (len (pk_deltaBuffer p))) l ->
  chip_runs pp l p <> UB UbRead /\
  forall p', chip_runs pp l p = Ok p' -> pk_sumDACInputs p' = total_volume p' /\ 0 <= pk_sumDACInputs p' <= 60.
Proof.
  intros E V. pose proof (chip_runs_ok pp _ l V p (initialized_live rate p0 p pp E)) as W. split.
  - intros X. rewrite X in W. apply W. reflexivity.
  - intros p' X. rewrite X in W. cbn [wpg] in W. destruct (lv_mixed _ _ _ _ _ W) as [M|M]; [exfalso; now apply M|]. now apply mixed_total.
Qed.

(* ---- C24: sample formats ---- *)
Lemma clamp_saturate v : clamp_sample v = saturate v.
Proof. unfold clamp_sample, saturate. destruct (v <? -32767) eqn:E1; [lia|]. destruct (32767 <? v) eqn:E2; lia. Qed.
Lemma sample_bytes_heard f v : -32768 <= v <= 32767 -> heard f (sample_bytes f v) = kept f v /\ len (sample_bytes f v) = bytes_per_sample f /\ bytes (sample_bytes f v).
Proof.
  intros H. unfold sample_bytes, heard, kept, u8, bytes, byte. rewrite !Z.shiftr_div_pow2 by lia. change (2 ^ 8) with 256.
  destruct f; (split; [|split; [reflexivity|repeat constructor; lia]]); unfold signed16; try lia.
  - destruct (_ <? 32768) eqn:E; lia.
  - destruct (_ <? 32768) eqn:E; lia.
Qed.

Lemma sample_stored buffer off i f p b' off' p' : store_sample buffer off i f p = Ok (b', off', p') ->
  let s := saturate (pk_iirAcc p' / 2048) in
  off' = off + bytes_per_sample f /\ 0 <= off /\ off' <= len buffer /\ len b' = len buffer /\
  heard f (slice b' off off') = kept f s /\
  (forall k, 0 <= k -> ~ (off <= k < off') -> at_ b' k = at_ buffer k) /\
  p' = set_pk_iirAcc (pk_iirAcc p + at_ (pk_deltaBuffer p) i - pk_iirRate p * pk_iirAcc p / 2048) p.
Proof.
  unfold store_sample, next_sample. intros E.
  destruct (Z_lt_ge_dec i 0) as [Hi|Hi]; [rewrite get_ub in E by lia; discriminate E|].
  destruct (Z_lt_ge_dec i (len (pk_deltaBuffer p))) as [Hj|Hj]; [|rewrite get_ub in E by lia; discriminate E]. rewrite get_ok in E by lia. cbn [bind] in E.
  unfold chk in E. destruct (is_int _); [|discriminate E]. cbn [bind] in E.
  destruct (is_int _); [|discriminate E]. cbn [bind] in E. destruct (is_int _); [|discriminate E]. cbn [bind] in E.
  rewrite !Z.shiftr_div_pow2 in E by lia. change (2 ^ 11) with 2048 in E.
  set (acc := pk_iirAcc p + (at_ (pk_deltaBuffer p) i - pk_iirRate p * pk_iirAcc p / 2048)) in *.
  rewrite clamp_saturate in E. set (sm := saturate (acc / 2048)) in *.
  assert (R : -32768 <= sm <= 32767) by (unfold sm, saturate; lia). destruct (sample_bytes_heard f sm R) as (H1 & H2 & _).
  assert (N : sample_bytes f sm <> []) by (destruct f; discriminate).
  destruct (store_bytes buffer off (sample_bytes f sm)) as [b| | |] eqn:S; cbn [bind] in E; try discriminate E.
  destruct (store_bytes_inv _ _ _ _ S N) as (S1 & S2 & S3). injection E as <- <- <-. cbn [pk_iirAcc set_pk_iirAcc].
  fold sm. rewrite H2 in *. split; [reflexivity|]. split; [exact S1|]. split; [exact S2|]. split; [rewrite S3; apply len_splice; lia|].
  split; [|split].
  - rewrite S3. rewrite <- H2. rewrite slice_splice by lia. exact H1.
  - intros k K1 K2. rewrite S3. apply at_splice_out; lia.
  - unfold acc. f_equal. lia.
Qed.
