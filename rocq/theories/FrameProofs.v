(* A frame of emulation *)
From Verif Require Import Base BaseFacts Loop MemModel InfoModel InfoProofs PokeyModel MachineModel CpuSpec CpuArith CpuProofs PokeyProofs MachineProofs.

(* the states passed through between instructions, and those in which an instruction is fetched *)
Inductive steps (limit : Z) (s : asap) : asap -> Prop :=
| steps_refl : steps limit s s
| steps_next t t1 t2 : steps limit s t -> m_cycle t < limit -> poll_event t = Ok t1 -> execute t1 = Ok t2 -> steps limit s t2.
Definition fetches (limit : Z) (s t1 : asap) : Prop := exists t, steps limit s t /\ m_cycle t < limit /\ poll_event t = Ok t1.

(* asap.c:2404-2416, the preparation of a frame *)
Definition frame_start (s : asap) : asap :=
  let s := set_m_nextScanlineCycle 0 (set_m_nextEventCycle 0 s) in
  set_m_nmist (match m_nmist s with NMI_RESET => NMI_ON_V_BLANK | _ => NMI_WAS_V_BLANK end) s.

Section Frame.
Variable B : ub_reason -> Prop.
Variable F : Prop.
Hypothesis HO : B UbOverflow.
Variable Sz : Z * Z -> Z -> Z -> Prop.

(* the last cycle of a frame at which a register can be written *)
Definition last_cycle (s : asap) : Z := frame_cycles (m_info s) + 24.

(* the state between frames *)
Record machine_ok (s : asap) : Prop := mkMachineOk {
  mo_cpu : cpu_ok s;
  mo_cycle : 0 <= m_cycle s;
  mo_base : live B Sz (m_pokeys s) (last_cycle s) (pp_basePokey (m_pokeys s));
  mo_extra : live B Sz (m_pokeys s) (last_cycle s) (pp_extraPokey (m_pokeys s))
}.

Lemma frame_cycles_range i : 29868 <= frame_cycles i <= 35568.
Proof. clear. unfold frame_cycles. destruct (i_ntsc i); lia. Qed.

Lemma end_timers_ok pp limit cycles p : live B Sz pp limit p -> live B Sz pp limit (end_timers cycles p).
Proof.
  intros L. unfold end_timers.
  assert (T : tame (channel_end_frame cycles)).
  { intros c Hc. unfold channel_end_frame. destruct (ch_timerCycle c =? never); [auto|]. exact (tame_timer _ c Hc). }
  repeat (apply live_upd; [first [apply ci0|apply ci1|apply ci3]|exact T|]). exact L.
Qed.

Definition safe_pc (s : asap) : Prop := B UbRead \/ forall t, fetches (frame_cycles (m_info s)) (frame_start s) t -> 0 <= m_pc t <= 65533.

Lemma do_6502_frame_ok s : tmc_ok B s -> machine_ok s -> safe_pc s ->
  wpg B F (do_6502_frame s) (fun s' => machine_ok s' /\ still s' = still s).
Proof.
  intros T M PCs. unfold do_6502_frame. pose proof (frame_cycles_range (m_info s)) as R. fold (frame_start s). cbv zeta.
  change (m_info (frame_start s)) with (m_info s). set (cycles := frame_cycles (m_info s)) in *.
  assert (R0 : running B Sz cycles s (frame_start s)).
  { destruct M as [C1 C2 L1 L2]. constructor; try reflexivity.
    - destruct C1. constructor; assumption.
    - constructor; [exact L1|exact L2|]. cbn. lia.
    - exact C2.
    - cbn. lia. }
  apply wpg_bind. eapply wpg_mono.
  { apply (cpu_do_frame_ok B F HO Sz (steps cycles (frame_start s)) cycles s T ltac:(lia)).
    - intros t t1 St Ht P. destruct PCs as [P1|P1]; [now left|right]. assert (0 <= m_pc t1 <= 65533); [|lia].
      apply P1. exists t. now split.
    - intros t t1 t2 St Ht P E. now apply steps_next with t t1.
    - apply steps_refl.
    - exact R0.
    - cbn. lia. }
  intros s' (_ & [C1 [L1 L2 _] C3 C4 _] & C5). cbn [wpg].
  match goal with |- context [if ?c then ?a else ?b] => set (s1 := if c then a else b) end.
  assert (V : view s1 = view s') by (unfold s1; destruct (_ =? never); reflexivity).
  assert (K : cpu_ok s1) by (unfold s1; destruct (_ =? never); destruct C1; constructor; assumption).
  assert (E1 : m_pokeys s1 = m_pokeys s') by (unfold s1; destruct (_ =? never); reflexivity).
  assert (E2 : still s1 = still s') by (unfold s1; destruct (_ =? never); reflexivity).
  assert (E3 : m_cycle s1 = m_cycle s' - cycles) by (unfold s1; destruct (_ =? never); reflexivity).
  assert (E4 : last_cycle s1 = cycles + 24) by (unfold last_cycle, cycles; now rewrite (still_info _ _ E2), (still_info _ _ C3)).
  clearbody s1. split; [|transitivity (still s1); [reflexivity|rewrite E2; exact C3]]. constructor.
  - destruct K. constructor; assumption.
  - cbn. lia.
  - change (last_cycle (set_m_pokeys _ s1)) with (last_cycle s1). rewrite E4, E1.
    apply live_pair with (m_pokeys s'); [reflexivity|reflexivity|]. now apply end_timers_ok.
  - change (last_cycle (set_m_pokeys _ s1)) with (last_cycle s1). rewrite E4, E1.
    apply live_pair with (m_pokeys s'); [reflexivity|reflexivity|]. now apply end_timers_ok.
Qed.

(* ---- the POKEYs at the borders of a frame ---- *)
Hypothesis HS : forall f n t, Sz f n t -> 0 <= t <= n /\ (B UbOverlap \/ n <= 2 * t).

Lemma start_frame_ok pp limit p : live B Sz pp limit p -> wpg B F (start_frame p) (live B Sz pp limit).
Proof.
  intros L. pose proof (lv_size _ _ _ _ _ L) as Z. destruct (HS _ _ _ Z) as [Z1 Z2]. unfold start_frame. cbv zeta.
  apply wpg_bind. rewrite get_range_ok by lia. cbn [wpg].
  destruct ((0 <? len (pk_deltaBuffer p) - pk_trailing p) && (pk_trailing p <? len (pk_deltaBuffer p) - pk_trailing p)) eqn:E; cbn [wpg].
  - destruct Z2 as [Z2|Z2]; [exact Z2|]. rewrite andb_true_iff in E. lia.
  - apply live_intro with p; [exact L| | |].
    + destruct (lv_ok _ _ _ _ _ L). constructor; assumption.
    + split; [|reflexivity]. cbn [pk_deltaBuffer set_pk_deltaBuffer]. rewrite len_app, len_slice by lia.
      unfold len at 2. rewrite repeat_length. lia.
    + intros []. constructor; assumption.
Qed.

Lemma pair_start_frame_ok pp limit : live B Sz pp limit (pp_basePokey pp) -> live B Sz pp limit (pp_extraPokey pp) ->
  wpg B F (pair_start_frame pp) (fun pp' => live B Sz pp' limit (pp_basePokey pp') /\ live B Sz pp' limit (pp_extraPokey pp') /\ fixed pp' = fixed pp).
Proof.
  intros L1 L2. unfold pair_start_frame. apply wpg_bind. eapply wpg_mono; [now apply (start_frame_ok pp limit)|]. intros p1 H1. cbv zeta.
  destruct (_ =? 0).
  - cbn [wpg]. split; [|split; [|reflexivity]]; apply live_pair with pp; try reflexivity; assumption.
  - apply wpg_bind. eapply wpg_mono; [now apply (start_frame_ok pp limit)|]. intros p2 H2. cbn [wpg].
    split; [|split; [|reflexivity]]; apply live_pair with pp; try reflexivity; assumption.
Qed.

Lemma live_offset pp pp' limit p : rates pp' = rates pp -> 0 <= pp_sampleOffset pp' < 262144 ->
  live B Sz pp limit p -> live B Sz pp' limit p.
Proof.
  intros E H [L1 L2 L3 L4]. constructor; [exact L1| |exact L3|unfold sized in *; now rewrite E].
  destruct L2 as [L2|L2]; [left; exact L2|right].
  assert (E3 : pp_sampleFactor pp' = pp_sampleFactor pp) by (unfold rates in E; congruence). unfold room in *. rewrite E3. tauto.
Qed.

(* the sampling state after a frame of [cycle] cycles *)
Definition ended (cycle : Z) (pp pp' : pokeyPair) : Prop :=
  let total := pp_sampleOffset pp + cycle * pp_sampleFactor pp in
  fixed pp' = (pp_extraPokeyMask pp, pp_sampleRate pp, pp_sincLookup pp, pp_sampleFactor pp, total mod 262144, 0, total / 262144).

Lemma pair_end_frame_ok pp limit cycle : short cycle -> cycle <= limit -> live B Sz pp limit (pp_basePokey pp) -> live B Sz pp limit (pp_extraPokey pp) ->
  wpg B F (pair_end_frame cycle pp) (fun pp' => live B Sz pp' limit (pp_basePokey pp') /\ live B Sz pp' limit (pp_extraPokey pp') /\
    ended cycle pp pp').
Proof.
  intros Hs Hl L1 L2. unfold pair_end_frame. apply wpg_bind.
  eapply wpg_mono; [now apply (end_frame_ok B F HO Sz pp cycle limit)|]. intros p1 H1. cbv zeta. apply wpg_bind.
  assert (Fin : forall pp1, fixed pp1 = fixed pp ->
    live B Sz pp limit (pp_basePokey pp1) -> live B Sz pp limit (pp_extraPokey pp1) ->
    wpg B F (step <- chk (cycle * pp_sampleFactor pp1) ;; offset <- chk (pp_sampleOffset pp1 + step) ;;
      Ok (set_pp_sampleOffset (Z.land offset 262143) (set_pp_readySamplesEnd (Z.shiftr offset 18) (set_pp_readySamplesStart 0 pp1))))
      (fun pp' => live B Sz pp' limit (pp_basePokey pp') /\ live B Sz pp' limit (pp_extraPokey pp') /\
    ended cycle pp pp')).
  { intros pp1 FX K1 K2. assert (E1 : rates pp1 = rates pp) by (unfold rates, fixed in *; congruence).
    assert (E2 : pp_sampleOffset pp1 = pp_sampleOffset pp) by (unfold fixed in *; congruence). apply wpg_bind, (wpg_chk' B F HO). intros _. apply wpg_bind, (wpg_chk' B F HO). intros _. cbn [wpg].
    rewrite Z.shiftr_div_pow2 by lia. change (2 ^ 18) with 262144.
    assert (E3 : pp_sampleFactor pp1 = pp_sampleFactor pp) by (unfold rates in E1; congruence). rewrite E3, E2.
    assert (G : 0 <= Z.land (pp_sampleOffset pp + cycle * pp_sampleFactor pp) 262143 < 262144).
    { change 262143 with (2 ^ 18 - 1). rewrite land_ones_mod by lia. apply Z.mod_pos_bound. lia. }
    split; [apply live_offset with pp; [exact E1|exact G|exact K1]|].
    split; [apply live_offset with pp; [exact E1|exact G|exact K2]|]. unfold ended, fixed in *. cbv zeta.
    cbn [pp_extraPokeyMask pp_sampleRate pp_sincLookup pp_sampleFactor pp_sampleOffset pp_readySamplesStart pp_readySamplesEnd set_pp_sampleOffset set_pp_readySamplesEnd set_pp_readySamplesStart].
    change 262143 with (2 ^ 18 - 1). rewrite land_ones_mod by lia. change (2 ^ 18) with 262144. congruence. }
  destruct (pp_extraPokeyMask (set_pp_basePokey p1 pp) =? 0).
  - cbn [wpg]. apply Fin; try reflexivity; assumption.
  - apply wpg_bind. eapply wpg_mono; [apply (end_frame_ok B F HO Sz (set_pp_basePokey p1 pp) cycle limit); [exact Hs|exact Hl|]|].
    + apply live_pair with pp; try reflexivity. exact L2.
    + intros p2 H2. cbn [wpg]. apply Fin; try reflexivity; [exact H1|]. apply live_pair with (set_pp_basePokey p1 pp); try reflexivity. exact H2.
Qed.

(* asap.c:2421-2428: the frame sees the POKEYs after their buffers have been shifted *)
Definition safe_frame (s : asap) : Prop := B UbRead \/ forall pp, pair_start_frame (m_pokeys s) = Ok pp ->
  forall t, fetches (frame_cycles (m_info s)) (frame_start (set_m_pokeys pp (set_m_gtiaOrCovoxPlayedThisFrame false s))) t -> 0 <= m_pc t <= 65533.

Lemma do_frame_ok s : tmc_ok B s -> machine_ok s -> safe_frame s ->
  wpg B F (do_frame s) (fun r => let '(cycles, s') := r in
    machine_ok s' /\ settings s' = settings s /\ cycles = frame_cycles (m_info s) /\ ended cycles (m_pokeys s) (m_pokeys s')).
Proof.
  intros T [C1 C2 L1 L2] S. unfold do_frame. cbv zeta. pose proof (frame_cycles_range (m_info s)) as R.
  apply wpg_bind. change (m_pokeys (set_m_gtiaOrCovoxPlayedThisFrame false s)) with (m_pokeys s).
  eapply wpg_mono; [apply wpg_eqn; now apply (pair_start_frame_ok (m_pokeys s) (last_cycle s))|]. intros pp [(P1 & P2 & PF) E].
  apply wpg_bind. set (s1 := set_m_pokeys pp _). eapply wpg_mono; [apply do_6502_frame_ok|].
  - exact T.
  - constructor; [destruct C1; constructor; assumption|exact C2|exact P1|exact P2].
  - destruct S as [S|S]; [left; exact S|right]. exact (S pp E).
  - intros s2 ([D1 D2 D3 D4] & D5). assert (D6 : m_info s2 = m_info s) by (apply still_info in D5; exact D5). rewrite D6. apply wpg_bind.
    assert (LC : last_cycle s2 = frame_cycles (m_info s) + 24) by (unfold last_cycle; now rewrite D6).
    eapply wpg_mono; [apply (pair_end_frame_ok (m_pokeys s2) (last_cycle s2)); [unfold short; lia|lia|exact D3|exact D4]|].
    intros pp2 (E1 & E2 & E3). cbn [wpg].
    split; [constructor; [destruct D1; constructor; assumption|exact D2|exact E1|exact E2]|].
    assert (S1 : still s1 = (settings s, fixed (m_pokeys s))) by (unfold still; f_equal; exact PF). rewrite S1 in D5. unfold still in D5. assert (D7 : settings s2 = settings s) by congruence. assert (D8 : fixed (m_pokeys s2) = fixed (m_pokeys s)) by congruence. clear D5.
    split; [exact D7|]. split; [reflexivity|]. cbn [m_pokeys set_m_pokeys]. unfold ended in *. cbv zeta in *. rewrite E3. unfold fixed in D8. congruence.
Qed.
End Frame.

(* ---- whole frames, without sections ---- *)
Definition chips_ok (s : asap) : Prop := pokey_ok (pp_basePokey (m_pokeys s)) /\ pokey_ok (pp_extraPokey (m_pokeys s)).
(* the trailing part of each delta buffer starts inside the buffer *)
Definition trailing_ok (s : asap) : Prop :=
  let pp := m_pokeys s in
  0 <= pk_trailing (pp_basePokey pp) <= len (pk_deltaBuffer (pp_basePokey pp)) /\
  0 <= pk_trailing (pp_extraPokey pp) <= len (pk_deltaBuffer (pp_extraPokey pp)).
(* the delta buffers are long enough for the register writes of a frame *)
Definition rooms (s : asap) : Prop :=
  let pp := m_pokeys s in
  room pp (last_cycle s) (len (pk_deltaBuffer (pp_basePokey pp))) /\ room pp (last_cycle s) (len (pk_deltaBuffer (pp_extraPokey pp))).

Lemma frame_terminates s : cpu_ok s -> 0 <= m_cycle s -> chips_ok s -> trailing_ok s -> do_frame s <> OutOfFuel.
Proof.
  intros C T [P1 P2] [T1 T2] E.
  assert (W : wpg (fun _ => True) False (do_frame s) (fun _ => True)); [|rewrite E in W; exact W].
  eapply wpg_mono.
  - apply (do_frame_ok (fun _ => True) False I (fun _ n t => 0 <= t <= n)).
    + intros _ n t H. split; [exact H|left; exact I].
    + intros _. left. exact I.
    + constructor; try assumption; constructor; try assumption; try (left; exact I).
    + left. exact I.
  - intros; exact I.
Qed.

Lemma frame_no_overrun s : cpu_ok s -> 0 <= m_cycle s -> chips_ok s -> rooms s ->
  wpg (fun r => In r [UbRead; UbOverflow]) False (do_6502_frame s) (fun s' => cpu_ok s' /\ 0 <= m_cycle s' /\ chips_ok s').
Proof.
  intros C T [P1 P2] [R1 R2]. eapply wpg_mono.
  - apply (do_6502_frame_ok (fun r => In r [UbRead; UbOverflow]) False ltac:(cbn; auto) (fun _ _ _ => True)).
    + intros _. left. cbn. auto.
    + constructor; try assumption; constructor; try assumption; try (left; cbn; now auto); try (right; assumption); exact I.
    + left. cbn. auto.
  - intros s' [[M1 M2 M3 M4] _]. split; [exact M1|]. split; [exact M2|]. split; [apply M3|apply M4].
Qed.

Lemma frame_inside s : cpu_ok s -> 0 <= m_cycle s -> chips_ok s -> rooms s ->
  mixed (pp_basePokey (m_pokeys s)) -> mixed (pp_extraPokey (m_pokeys s)) ->
  (i_type (m_info s) = TMC -> 0 <= i_music (m_info s) <= 65504) ->
  (forall t, fetches (frame_cycles (m_info s)) (frame_start s) t -> 0 <= m_pc t <= 65533) ->
  wpg (fun r => r = UbOverflow) False (do_6502_frame s) (fun _ => True).
Proof.
  intros C T [P1 P2] [R1 R2] M1 M2 TM PCs. eapply wpg_mono.
  - apply (do_6502_frame_ok (fun r => r = UbOverflow) False eq_refl (fun _ _ _ => True)).
    + intros E. specialize (TM E). right. lia.
    + constructor; try assumption; constructor; try assumption; try (right; assumption); exact I.
    + right. exact PCs.
  - intros; exact I.
Qed.
