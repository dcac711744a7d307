(* The player is called in every fastplay-th scanline *)
From Verif Require Import Base BaseFacts Loop MemModel InfoModel InfoProofs NativeModel WriterModel PokeyModel MachineModel PlayModel CpuSpec CpuProofs PokeyProofs MachineProofs FrameProofs SoundSpec SoundProofs CallSpec CallProofs RateSpec
  SapSpec NativeSpec NativeLoadProofs PlayProofs.

(* ---- what one instruction does to the clock, whatever the state ---- *)
Definition W {A} (m : outcome A) (P : A -> Prop) : Prop := wpg (fun _ => True) True m P.
Lemma W_bind {A C} (m : outcome A) (f : A -> outcome C) P : W m (fun a => W (f a) P) -> W (bind m f) P.
Proof. apply wpg_bind. Qed.
Lemma W_mono {A} (m : outcome A) (P Q : A -> Prop) : W m P -> (forall a, P a -> Q a) -> W m Q.
Proof. apply wpg_mono. Qed.
Lemma W_true {A} (m : outcome A) (P : A -> Prop) : (forall a, P a) -> W m P.
Proof. destruct m; cbn; auto. Qed.

Section Line.
Variable k : info * Z * Z.
Variable L : Z.
Hypothesis HL : 0 <= L /\ L mod 114 = 0.

Definition here (b : Z) (s : asap) : Prop :=
  (m_info s, m_nextScanlineCycle s, m_nextPlayerCycle s) = k /\ m_nextEventCycle s <= L /\ m_cycle s <= L + b.

Lemma here_more b b' s : here b s -> b <= b' -> here b' s.
Proof. intros (H1 & H2 & H3) Hb. split; [exact H1|]. split; [exact H2|lia]. Qed.
Lemma here_cycle b n s : here b s -> here (b + n) (set_m_cycle (m_cycle s + n) s).
Proof. intros (H1 & H2 & H3). split; [exact H1|]. split; [exact H2|]. cbn [m_cycle set_m_cycle]. lia. Qed.

Lemma W_rd s a (P : Z -> Prop) : (forall v, P v) -> W (mem_rd s a) P.
Proof. apply W_true. Qed.
Lemma W_wr b a v s : here b s -> W (mem_wr a v s) (here b).
Proof. intros H. unfold mem_wr. apply W_bind, W_true. intros m. exact H. Qed.
Lemma W_fetch b s : here b s -> W (fetch s) (fun r => here b (snd r)).
Proof. intros H. unfold fetch. apply W_bind, W_true. intros v. exact H. Qed.
Lemma W_pull b s : here b s -> W (pull s) (fun r => here b (snd r)).
Proof. intros H. unfold pull. cbv zeta. apply W_bind, W_true. intros v. exact H. Qed.
Lemma W_push b v s : here b s -> W (push v s) (here b).
Proof. intros H. unfold push. cbv zeta. apply W_bind. eapply W_mono; [apply W_wr, H|]. intros s1 H1. exact H1. Qed.
Lemma W_push_pc b s : here b s -> W (push_pc s) (here b).
Proof. intros H. unfold push_pc. apply W_bind. eapply W_mono; [apply W_push, H|]. intros s1 H1. apply W_push, H1. Qed.
Lemma W_push_flags b v s : here b s -> W (push_flags v s) (here b).
Proof. intros H. unfold push_flags. cbv zeta. apply W_push, H. Qed.
Lemma W_pull_flags b s : here b s -> W (pull_flags s) (here b).
Proof. intros H. unfold pull_flags. apply W_bind. eapply W_mono; [apply W_pull, H|]. intros [v s1] H1. exact H1. Qed.
Lemma W_execute_irq b v s : here b s -> W (execute_irq v s) (here b).
Proof.
  intros H. unfold execute_irq. apply W_bind. eapply W_mono; [apply W_push_pc, H|]. intros s1 H1. apply W_bind. eapply W_mono; [apply W_push_flags, H1|]. intros s2 H2.
  cbv zeta. apply W_bind, W_true. intros lo. apply W_bind, W_true. intros hi. exact H2.
Qed.
Lemma W_check_irq b s : here b s -> W (check_irq s) (here (b + 7)).
Proof.
  intros H. unfold check_irq. destruct (_ && _); [|apply here_more with b; [exact H|lia]]. apply W_execute_irq. now apply here_cycle.
Qed.

(* writing to hardware: the wait for the end of the line ends in cycle 106 of a line *)
Lemma W_poke_hardware b a v s : b <= 106 -> here b s -> W (poke_hardware a v s) (here 106).
Proof.
  intros Hb H. pose proof (here_more b 106 s H Hb) as H6. unfold poke_hardware. destruct (Z.shiftr a 8 =? 210).
  { apply W_bind, W_true. intros [t pp]. cbv zeta. destruct (t <? m_nextEventCycle (set_m_pokeys pp s)) eqn:E; [|exact H6].
    destruct H6 as (H1 & H2 & H3). split; [exact H1|]. split; [cbn in *; lia|exact H3]. }
  destruct (Z.land a 65295 =? 54282).
  { cbv zeta. destruct H6 as (H1 & H2 & H3). split; [exact H1|]. split; [exact H2|]. cbn [m_cycle set_m_cycle].
    pose proof (Z.quot_rem' (m_cycle s) 114) as Q. set (q := Z.quot (m_cycle s) 114) in *. set (x := Z.rem (m_cycle s) 114) in *.
    assert (X : -114 < x < 114) by (subst x; pose proof (Z.rem_bound_abs (m_cycle s) 114 ltac:(discriminate)); lia).
    assert (XS : 0 <= m_cycle s -> 0 <= x) by (intros; subst x; apply Z.rem_nonneg; lia).
    assert (XN : m_cycle s < 0 -> x <= 0) by (intros; subst x; apply Z.rem_nonpos; lia).
    clearbody q x. destruct (x <=? 106) eqn:E; lia. }
  destruct (Z.land a 65295 =? 54287); [exact H6|].
  destruct (Z.land a 65280 =? i_covox (m_info s)).
  { cbv zeta. destruct (_ =? 0); [exact H6|]. apply W_bind, W_true. intros pp. exact H6. }
  destruct (Z.land a 65311 =? 53279).
  { cbv zeta. apply W_bind. apply W_mono with (here 106); [|intros s1 H1; exact H1]. destruct (_ =? 0); [exact H6|].
    apply W_bind, W_true. intros p. apply W_bind, W_true. intros p'. exact H6. }
  apply W_wr, H6.
Qed.
Lemma W_poke b a v s : b <= 106 -> here b s -> W (cpu_poke a v s) (here 106).
Proof.
  intros Hb H. unfold cpu_poke. destruct (_ =? _); [now apply W_poke_hardware with b|]. apply W_wr. now apply here_more with b.
Qed.
(* the D2 page does not hold the end of line register *)
Lemma W_rmw b a s : here b s -> W (peek_rmw a s) (fun r => here b (snd r)).
Proof.
  intros H. unfold peek_rmw. destruct (Z.shiftr a 8 =? 210) eqn:E.
  - cbv zeta. apply W_bind, W_true. intros v. apply W_bind. apply W_mono with (here (b - 1)).
    + unfold poke_hardware. rewrite E. apply W_bind, W_true. intros [t pp]. cbv zeta. destruct H as (H1 & H2 & H3).
      destruct (t <? _) eqn:T; (split; [exact H1|]; split; [cbn in *; lia|]; cbn in *; lia).
    + intros s1 H1. cbn [W wpg snd]. replace b with (b - 1 + 1) by lia. now apply here_cycle.
  - apply W_bind, W_true. intros v. exact H.
Qed.
Ltac shifted f := intros Hb H; unfold f; cbv zeta; apply W_bind; (eapply W_mono; [apply W_rmw, H|]); intros [v s1] H1; cbv zeta; apply W_bind; (eapply W_mono; [eapply W_poke; [exact Hb|exact H1]|]); intros s2 H2; exact H2.
Lemma W_asl b a s : b <= 106 -> here b s -> W (arithmetic_shift_left a s) (fun r => here 106 (snd r)). Proof. shifted arithmetic_shift_left. Qed.
Lemma W_rol b a s : b <= 106 -> here b s -> W (rotate_left a s) (fun r => here 106 (snd r)). Proof. shifted rotate_left. Qed.
Lemma W_lsr b a s : b <= 106 -> here b s -> W (logical_shift_right a s) (fun r => here 106 (snd r)). Proof. shifted logical_shift_right. Qed.
Lemma W_ror b a s : b <= 106 -> here b s -> W (rotate_right a s) (fun r => here 106 (snd r)). Proof. shifted rotate_right. Qed.
Lemma W_dec b a s : b <= 106 -> here b s -> W (decrement a s) (fun r => here 106 (snd r)). Proof. shifted decrement. Qed.
Lemma W_inc b a s : b <= 106 -> here b s -> W (increment a s) (fun r => here 106 (snd r)). Proof. shifted increment. Qed.
Lemma W_shx b a v s : b <= 106 -> here b s -> W (shx a v s) (here 106).
Proof.
  intros Hb H. unfold shx. apply W_bind. eapply W_mono; [apply W_fetch, H|]. intros [lo s1] H1. cbv zeta. apply W_bind. eapply W_mono; [apply W_fetch, H1|]. intros [hi s2] H2.
  eapply W_poke; [exact Hb|exact H2].
Qed.
Lemma here_adc b v s : here b s -> here b (add_with_carry v s).
Proof. intros H. unfold add_with_carry. cbv zeta. destruct (_ =? 0); [exact H|]. destruct (160 <=? _); exact H. Qed.
Lemma here_sbc b v s : here b s -> here b (subtract_with_carry v s).
Proof. intros H. unfold subtract_with_carry. cbv zeta. destruct (Z.land (m_vdi s) 8 =? 0); exact H. Qed.

(* the first switch *)
Definition here_mode (b : Z) (r : first_result) : Prop := match r with Done s => here 106 s | Operand _ s => here (b + 1) s end.
Lemma W_indexed b f c s : here b s -> W (abs_indexed f c s) (here_mode b).
Proof.
  intros H. unfold abs_indexed. apply W_bind. eapply W_mono; [apply W_fetch, H|]. intros [lo s1] H1. cbv zeta. apply W_bind.
  eapply W_mono; [apply W_fetch with (b := b + 1)|]; [|intros [hi s2] H2; exact H2].
  destruct (_ && _); [apply here_cycle, H1|apply here_more with b; [exact H1|lia]].
Qed.
Lemma W_branch b c s : b + 1 <= 106 -> here b s -> W (branch_if c s) (here_mode b).
Proof. intros Hb H. unfold branch_if. destruct c; cbn; apply here_more with b; try exact H; lia. Qed.

Ltac here_done := match goal with
  | H : here ?b ?s |- W (done _) _ => apply here_more with b; [exact H|lia]
  | H : here ?b ?s |- W (Ok (Operand _ _)) _ => apply here_more with b; [exact H|lia]
  | H : here ?b ?s |- here_mode _ _ => apply here_more with b; [exact H|lia]
  end.
Ltac mode_step := match goal with
  | |- W (bind (mem_rd _ _) _) _ => apply W_bind, W_true; intros ?
  | |- W (bind (zp_word _ _) _) _ => apply W_bind, W_true; intros ?
  | H : here ?b ?s |- W (bind (fetch _) _) _ => apply W_bind; eapply W_mono; [apply W_fetch with (b := b); exact H|]; clear H; intros [? ?] H; cbn [snd] in H
  | H : here ?b ?s |- W (bind (pull _) _) _ => apply W_bind; eapply W_mono; [apply W_pull with (b := b); exact H|]; clear H; intros [? ?] H; cbn [snd] in H
  | H : here ?b ?s |- W (bind (push _ _) _) _ => apply W_bind; eapply W_mono; [apply W_push with (b := b); exact H|]; clear H; intros ? H
  | H : here ?b ?s |- W (bind (push_pc _) _) _ => apply W_bind; eapply W_mono; [apply W_push_pc with (b := b); exact H|]; clear H; intros ? H
  | H : here ?b ?s |- W (bind (push_flags _ _) _) _ => apply W_bind; eapply W_mono; [apply W_push_flags with (b := b); exact H|]; clear H; intros ? H
  | H : here ?b ?s |- W (bind (pull_flags _) _) _ => apply W_bind; eapply W_mono; [apply W_pull_flags with (b := b); exact H|]; clear H; intros ? H
  | H : here ?b ?s |- W (bind (execute_irq _ _) _) _ => apply W_bind; eapply W_mono; [apply W_execute_irq with (b := b); exact H|]; clear H; intros ? H
  | H : here ?b ?s |- W (bind (check_irq _) _) _ => apply W_bind; eapply W_mono; [apply W_check_irq with (b := b); exact H|]; clear H; intros ? H
  | H : here ?b ?s |- W (bind (shx _ _ _) _) _ => apply W_bind; eapply W_mono; [apply W_shx with (b := b); [|exact H]; lia|]; clear H; intros ? H
  | H : here ?b ?s |- W (bind (cpu_poke _ _ _) _) _ => apply W_bind; eapply W_mono; [apply W_poke with (b := b); [|exact H]; lia|]; clear H; intros ? H
  end.

Lemma W_mode m b s : b + 7 <= 106 -> here b s -> W (run_mode m s) (here_mode b).
Proof.
  intros Hb H. destruct m; cbn [run_mode]; cbv zeta.
  all: try (now apply W_branch; [lia|]).
  all: try (now apply W_indexed).
  all: try exact I.
  all: try (unfold fetch_word; cbn [bind]).
  all: repeat mode_step.
  all: try here_done.
  - destruct H as (H1 & H2 & H3). split; [exact H1|]. split; [exact H2|]. cbn [m_cycle set_m_cycle]. lia.
  - apply W_bind, W_bind. eapply W_mono; [apply W_fetch, H|]. intros [lo s1] H1. apply W_bind. eapply W_mono; [apply W_fetch, H1|]. intros [hi s2] H2.
    apply here_more with b; [exact H2|lia].
  - match goal with |- context [if ?c then _ else _] => destruct c end; [now apply here_cycle|here_done].
  - match goal with |- context [if ?c then _ else _] => destruct c end; [|here_done]. apply here_more with (b + 1); [|lia].
    exact (here_cycle b 1 s H).
  - repeat match goal with |- context [if ?c then _ else _] => destruct c end; here_done.
Qed.

(* the second switch *)
Lemma W_branching b s : here b s -> W (take_branch s) (here (b + 2)).
Proof.
  intros H. unfold take_branch. apply W_bind, W_true. intros v. cbv zeta.
  destruct (_ =? 0); [apply here_more with (b + 1); [|lia]|]; exact (here_cycle b _ s H).
Qed.
Lemma W_operation o b a s : b + 2 <= 106 -> here b s -> W (run_operation o a s) (here 106).
Proof.
  intros Hb H. pose proof (here_more b 106 s H ltac:(lia)) as H6. destruct o; cbn [run_operation]; cbv zeta.
  all: try exact I.
  all: try (apply W_poke with b; [lia|exact H]).
  all: try (apply W_bind, W_true; intros v; exact H6).
  all: try (apply W_bind, W_true; intros v; apply W_bind, W_true; intros w; exact H6).
  all: try (apply W_bind; eapply W_mono; [first [apply W_asl with b|apply W_rol with b|apply W_lsr with b|apply W_ror with b|apply W_dec with b|apply W_inc with b]; [lia|exact H]|];
    intros [v s1] H1; first [exact H1|apply here_adc, H1|apply here_sbc, H1]).
  - eapply W_mono; [apply W_branching, H|]. intros s1 H1. apply here_more with (b + 2); [exact H1|lia].
  - apply W_bind, W_true. intros v. apply here_adc, H6.
  - apply W_bind, W_true. intros v. apply here_sbc, H6.
Qed.

Lemma cycles_small op : W (get opcode_cycles op) (fun n => 0 <= n <= 8).
Proof.
  unfold W. apply wpg_get; [|right; exact I]. intros Hi. change (len opcode_cycles) with 256 in Hi.
  pose proof (byte_sweep (fun v => (0 <=? at_ opcode_cycles v) && (at_ opcode_cycles v <=? 8)) ltac:(vm_compute; reflexivity) op ltac:(unfold byte; lia)) as B.
  cbv beta in B. lia.
Qed.

Lemma W_instruction s : here 6 s -> W (execute s) (here 106).
Proof.
  intros H. unfold execute. apply W_bind. eapply W_mono; [apply W_fetch, H|]. intros [op s1] H1. cbn [snd] in H1. apply W_bind.
  eapply W_mono; [apply cycles_small|]. intros n Hn. apply W_bind. cbv beta in Hn.
  eapply W_mono; [apply W_mode with (b := 6 + n); [lia|exact (here_cycle 6 n s1 H1)]|]. intros [s2|a s2] H2; [exact H2|].
  cbn [here_mode] in H2. apply W_operation with (6 + n + 1); [lia|exact H2].
Qed.
End Line.

(* ---- the clock between instructions ---- *)
(* [clock j s]: scanline j is the next to come, and the program is at most 106 cycles late for it *)
Definition clock (j : Z) (s : asap) : Prop :=
  0 <= j /\ m_nextScanlineCycle s = 114 * j /\ m_nextEventCycle s <= m_nextScanlineCycle s /\ m_cycle s <= m_nextScanlineCycle s + 106.

Lemma check_timer_le cycle i next p : fst (check_timer cycle i (next, p)) <= next.
Proof. unfold check_timer. destruct (_ <=? cycle); cbn [fst]; lia. Qed.
Lemma check_irq_le cycle next p : fst (pokey_check_irq cycle next p) <= next.
Proof.
  unfold pokey_check_irq. destruct (check_timer cycle 3 (next, p)) as [n1 p1] eqn:E1. pose proof (check_timer_le cycle 3 next p) as L1. rewrite E1 in L1.
  destruct (check_timer cycle 1 (n1, p1)) as [n2 p2] eqn:E2. pose proof (check_timer_le cycle 1 n1 p1) as L2. rewrite E2 in L2.
  pose proof (check_timer_le cycle 0 n2 p2) as L3. cbn [fst] in *. lia.
Qed.

Lemma handle_event_next s s' : handle_event s = Ok s' -> m_nextEventCycle s' <= m_nextScanlineCycle s'.
Proof.
  unfold handle_event. intros E. apply bind_ok in E. destruct E as (s0 & _ & E). apply event_tail in E.
  destruct E as (_ & _ & K & _ & p1 & p2 & n1 & p3 & E1 & E2). rewrite K.
  pose proof (check_irq_le (m_cycle s0) (m_nextScanlineCycle s0) (pp_basePokey (m_pokeys s0))) as L1. rewrite E1 in L1.
  pose proof (check_irq_le (m_cycle s0) n1 p2) as L2. rewrite E2 in L2. cbn [fst] in *. lia.
Qed.

Lemma check_irq_here k L b s s' : here k L b s -> check_irq s = Ok s' -> here k L (b + 7) s'.
Proof. intros H E. pose proof (W_check_irq k L b s H) as K. rewrite E in K. exact K. Qed.

(* one instruction with its event: the line is handled exactly if it has started *)
Lemma step_clock j s t1 s' : clock j s -> poll_event s = Ok t1 -> execute t1 = Ok s' ->
  m_info s' = m_info s /\
  ((m_cycle s < 114 * j /\ ~ calls_player s /\ clock j s' /\ m_nextPlayerCycle s' = m_nextPlayerCycle s) \/
   (114 * j <= m_cycle s <= 114 * j + 106 /\ clock (j + 1) s' /\
    ((~ calls_player s /\ 114 * j < m_nextPlayerCycle s /\ m_nextPlayerCycle s' = m_nextPlayerCycle s) \/
     (calls_player s /\ m_nextPlayerCycle s < 114 * (j + 1) /\ m_nextPlayerCycle s' = m_nextPlayerCycle s + 114 * i_fastplay (m_info s))))).
Proof.
  intros (J & Sc & Ev & Cy) P X.
  assert (Fin : forall i u t, m_info t1 = m_info s -> m_nextScanlineCycle t1 = 114 * i -> 0 <= i -> m_nextPlayerCycle t1 = u -> here (m_info s, 114 * i, u) (114 * i) 6 t ->
    t = t1 -> m_info s' = m_info s /\ clock i s' /\ m_nextPlayerCycle s' = u).
  { intros i u t _ _ Hi _ H ->. pose proof (W_instruction (m_info s, 114 * i, u) (114 * i) ltac:(lia) t1 H) as K. rewrite X in K. destruct K as (K1 & K2 & K3).
    assert (m_info s' = m_info s) by congruence. assert (m_nextScanlineCycle s' = 114 * i) by congruence. assert (m_nextPlayerCycle s' = u) by congruence.
    split; [assumption|]. split; [|assumption]. unfold clock. lia. }
  unfold poll_event in P. destruct (m_nextEventCycle s <=? m_cycle s) eqn:Due.
  - apply bind_ok in P. destruct P as (s1 & P1 & P2). pose proof (handle_event_next s s1 P1) as Nx.
    destruct (handle_event_cases s s1 P1) as [(N & (_ & _ & _ & _ & I1) & C1 & S1 & Q1)|(N & C1 & S1 & D)].
    + (* a timer only *)
      assert (H : here (m_info s, 114 * j, m_nextPlayerCycle s) (114 * j) (-1) s1) by (unfold line_starts in N; unfold here; rewrite I1, S1, Q1, Sc; split; [reflexivity|lia]).
      apply check_irq_here with (s' := t1) in H; [|exact P2]. destruct (Fin j (m_nextPlayerCycle s) t1) as (F1 & F2 & F3); try reflexivity.
      * destruct H as (H & _). congruence.
      * destruct H as (H & _). congruence.
      * exact J.
      * destruct H as (H & _). congruence.
      * exact H.
      * split; [exact F1|]. left. unfold line_starts in N. split; [lia|]. split; [intros (_ & G & _); contradiction|]. split; assumption.
    + unfold line_starts in N. assert (R : refresh s = if m_cycle s - 114 * j <? 50 then 9 else 0) by (unfold refresh; now rewrite Sc).
      assert (B : m_cycle s + refresh s <= 114 * j + 106) by (rewrite R; destruct (_ <? 50) eqn:E; lia).
      assert (B0 : m_cycle s <= m_cycle s + refresh s) by (rewrite R; destruct (_ <? 50); lia).
      assert (I1 : m_info s1 = m_info s).
      { destruct D as [(_ & (_ & _ & _ & _ & I1) & _)|(_ & _ & u & Eu & (_ & _ & _ & _ & I1))]; [exact I1|]. destruct (call_keeps s u Eu) as (I2 & _). congruence. }
      assert (H : here (m_info s, 114 * (j + 1), m_nextPlayerCycle s1) (114 * (j + 1)) (-1) s1) by (unfold here; rewrite I1, S1, Sc; split; [f_equal; f_equal; lia|lia]).
      apply check_irq_here with (s' := t1) in H; [|exact P2]. destruct (Fin (j + 1) (m_nextPlayerCycle s1) t1) as (F1 & F2 & F3); try reflexivity.
      * destruct H as (H & _). congruence.
      * destruct H as (H & _). congruence.
      * lia.
      * destruct H as (H & _). congruence.
      * exact H.
      * split; [exact F1|]. right. split; [lia|]. split; [exact F2|]. destruct D as [(D1 & _ & D3)|(D1 & D2 & _)].
        -- left. split; [intros (_ & G); contradiction|]. unfold player_due, line_starts in D1. split; [lia|congruence].
        -- right. split; [split; [lia|exact D1]|]. destruct D1 as [_ D1]. split; [lia|congruence].
  - assert (t1 = s) as -> by congruence.
    assert (H : here (m_info s, 114 * j, m_nextPlayerCycle s) (114 * j) 6 s) by (unfold here; rewrite Sc; split; [reflexivity|lia]).
    destruct (Fin j (m_nextPlayerCycle s) s) as (F1 & F2 & F3); try reflexivity; try assumption.
    split; [exact F1|]. left. split; [lia|]. split; [intros (G & _); lia|]. split; assumption.
Qed.

(* ---- a frame ---- *)
Definition is_due (p f i : Z) : bool := (p <=? i) && ((i - p) mod f =? 0).
Definition due_lines (p f j : Z) : list Z := filter (is_due p f) (zrange (Z.to_nat j)).
(* q is the first line from j on in which the player is due *)
Definition next_due (p f j q : Z) : Prop := j <= q /\ is_due p f q = true /\ forall i, j <= i < q -> is_due p f i = false.

Lemma zrange_S n : zrange (S n) = zrange n ++ [Z.of_nat n].
Proof. unfold zrange. rewrite seq_S, map_app. reflexivity. Qed.
Lemma due_lines_next p f j : 0 <= j -> due_lines p f (j + 1) = due_lines p f j ++ (if is_due p f j then [j] else []).
Proof.
  intros Hj. unfold due_lines. replace (Z.to_nat (j + 1)) with (S (Z.to_nat j)) by lia. rewrite zrange_S, filter_app. f_equal. cbn [filter].
  rewrite Z2Nat.id by lia. reflexivity.
Qed.

Lemma is_due_iff p f i : is_due p f i = true <-> p <= i /\ (i - p) mod f = 0.
Proof. unfold is_due. rewrite andb_true_iff, Z.leb_le, Z.eqb_eq. reflexivity. Qed.

Lemma is_due_false p f i : is_due p f i = false <-> i < p \/ (i - p) mod f <> 0.
Proof. unfold is_due. rewrite andb_false_iff, Z.leb_gt, Z.eqb_neq. reflexivity. Qed.

Lemma mod_shift f a b : 0 < f -> a mod f = 0 -> (b mod f = 0 <-> (b + a) mod f = 0).
Proof. intros Hf Ha. rewrite <- Zplus_mod_idemp_r, Ha, Z.add_0_r. reflexivity. Qed.

Lemma next_due_step p f j q : 0 < f -> next_due p f j q ->
  (q = j -> is_due p f j = true /\ next_due p f (j + 1) (q + f)) /\ (q <> j -> is_due p f j = false /\ next_due p f (j + 1) q).
Proof.
  intros Hf (H1 & H2 & H3). split; intros E.
  - subst q. split; [exact H2|]. apply is_due_iff in H2. destruct H2 as [H2 H4]. split; [lia|]. split.
    + apply is_due_iff. split; [lia|]. replace (j + f - p) with (j - p + 1 * f) by lia. rewrite Z_mod_plus_full. exact H4.
    + intros i Hi. apply is_due_false. right. replace (i - p) with ((i - j) + (j - p)) by lia. intros C.
      apply (mod_shift f (j - p) (i - j) Hf H4) in C. rewrite Z.mod_small in C by lia. lia.
  - split; [apply H3; lia|]. split; [lia|]. split; [exact H2|]. intros i Hi. apply H3. lia.
Qed.

Section Frame.
Variable s : asap.
Variable p : Z.
Let f := i_fastplay (m_info s).
Let limit := frame_cycles (m_info s).
Hypothesis Hf : 0 < f.
Hypothesis Hstart : clock 0 s.

Lemma limit_lines : limit = 114 * lines (m_info s).
Proof. unfold limit, frame_cycles, lines. destruct (i_ntsc (m_info s)); reflexivity. Qed.

Definition at_clock (j : Z) (t : asap) : Prop := clock j t /\ j <= lines (m_info s) /\ m_info t = m_info s.
Definition at_rate (l : list Z) (t : asap) : Prop :=
  exists j q, at_clock j t /\ m_nextPlayerCycle t = 114 * q /\ next_due p f j q /\ l = due_lines p f j.

Lemma plays_clock l t : plays limit s l t -> exists j, at_clock j t.
Proof.
  induction 1 as [|l t t1 t2 _ (j & C & J & I) Lt N P E|l t t1 t2 _ (j & C & J & I) Lt N P E].
  - exists 0. split; [exact Hstart|]. split; [unfold lines; destruct (i_ntsc (m_info s)); lia|reflexivity].
  - destruct (step_clock j t t1 t2 C P E) as (I2 & [(_ & _ & C2 & _)|(B & C2 & _)]); [exists j; split; [exact C2|split; [exact J|congruence]]|].
    exists (j + 1). split; [exact C2|]. pose proof limit_lines. split; [lia|congruence].
  - destruct (step_clock j t t1 t2 C P E) as (I2 & [(_ & _ & C2 & _)|(B & C2 & _)]); [exists j; split; [exact C2|split; [exact J|congruence]]|].
    exists (j + 1). split; [exact C2|]. pose proof limit_lines. split; [lia|congruence].
Qed.

Lemma plays_rate l t : 0 <= p -> m_nextPlayerCycle s = 114 * p -> plays limit s l t -> at_rate l t.
Proof.
  intros Hp Hn. induction 1 as [|l t t1 t2 _ (j & q & (C & J & I) & Q & D & ->) Lt N P E|l t t1 t2 _ (j & q & (C & J & I) & Q & D & ->) Lt N P E].
  - exists 0, p. split; [split; [exact Hstart|]; split; [unfold lines; destruct (i_ntsc (m_info s)); lia|reflexivity]|]. split; [exact Hn|]. split; [|reflexivity].
    split; [exact Hp|]. split; [apply is_due_iff; split; [lia|]; rewrite Z.sub_diag; apply Z.mod_0_l; lia|]. intros i Hi. apply is_due_false. left. lia.
  - destruct (next_due_step p f j q Hf D) as [D1 D2]. pose proof C as C'. destruct C as (J0 & _).
    destruct (step_clock j t t1 t2 C' P E) as (I2 & [(_ & _ & C2 & Q2)|(B & C2 & [(_ & B2 & Q2)|(G & _)])]); [| |contradiction].
    + exists j, q. split; [split; [exact C2|split; [exact J|congruence]]|]. split; [congruence|]. split; [exact D|reflexivity].
    + destruct (D2 ltac:(lia)) as [D3 D4]. exists (j + 1), q. pose proof limit_lines. split; [split; [exact C2|split; [lia|congruence]]|]. split; [congruence|].
      split; [exact D4|]. rewrite due_lines_next by exact J0. now rewrite D3, app_nil_r.
  - destruct (next_due_step p f j q Hf D) as [D1 D2]. pose proof C as C'. destruct C as (J0 & Sc & _).
    destruct (step_clock j t t1 t2 C' P E) as (I2 & [(_ & G & _)|(B & C2 & [(G & _)|(_ & B2 & Q2)])]); [contradiction|contradiction|].
    assert (q = j) by (destruct D; lia). subst q. destruct (D1 eq_refl) as [D3 D4]. exists (j + 1), (j + f). pose proof limit_lines.
    split; [split; [exact C2|split; [lia|congruence]]|]. split; [rewrite Q2, Q, I; fold f; lia|].
    split; [exact D4|]. rewrite due_lines_next by exact J0. rewrite D3. f_equal. f_equal. rewrite Sc, Z.mul_comm. apply Z.div_mul. lia.
Qed.

(* at the end of the frame all lines have been seen *)
Lemma frame_over j t : at_clock j t -> limit <= m_cycle t -> j = lines (m_info s).
Proof. intros ((J & Sc & Ev & Cy) & J1 & _) G. pose proof limit_lines. lia. Qed.
End Frame.

Lemma frame_started s : m_cycle s <= 106 -> clock 0 (frame_start s).
Proof. intros H. unfold clock, frame_start. cbv zeta. cbn. lia. Qed.

(* the loop runs along a trace *)
Lemma loop_plays limit s s' : cpu_do_frame limit s = Ok s' -> exists l, plays limit s l s' /\ limit <= m_cycle s'.
Proof.
  unfold cpu_do_frame. generalize frame_fuel. intros n E.
  refine (loopZ_keeps (cpu_step limit) (fun t => exists l, plays limit s l t) (fun t => exists l, plays limit s l t /\ limit <= m_cycle t) n s s' _ _ E).
  - intros t x (l & P) D. unfold cpu_step in D. destruct (m_cycle t <? limit) eqn:C.
    + apply bind_ok in D. destruct D as (t1 & D1 & D). apply bind_ok in D. destruct D as (t2 & D2 & D). unfold continue_ in D. assert (x = inl t2) as -> by congruence.
      assert (X : calls_player t \/ ~ calls_player t).
      { unfold calls_player, player_due, line_starts. destruct (Z_le_gt_dec (m_nextEventCycle t) (m_cycle t)), (Z_le_gt_dec (m_nextScanlineCycle t) (m_cycle t)),
          (Z_le_gt_dec (m_nextPlayerCycle t) (m_cycle t + refresh t)); lia. }
      destruct X as [X|X]; [exists (l ++ [m_nextScanlineCycle t / 114]); eapply plays_call; eauto; lia|exists l; eapply plays_on; eauto; lia].
    + unfold leave in D. assert (x = inr t) as -> by congruence. exists l. split; [exact P|lia].
  - exists []. constructor.
Qed.

(* asap.c:2411-2417, the end of a frame *)
Definition frame_end (cycles : Z) (t : asap) : asap :=
  let s := set_m_cycle (m_cycle t - cycles) t in
  let s := if m_nextPlayerCycle s =? never then s else set_m_nextPlayerCycle (m_nextPlayerCycle s - cycles) s in
  let pp := m_pokeys s in
  set_m_pokeys (set_pp_extraPokey (end_timers cycles (pp_extraPokey pp)) (set_pp_basePokey (end_timers cycles (pp_basePokey pp)) pp)) s.

Lemma frame_parts s : do_6502_frame s = bind (cpu_do_frame (frame_cycles (m_info s)) (frame_start s)) (fun t => Ok (frame_end (frame_cycles (m_info s)) t)).
Proof. reflexivity. Qed.

Lemma frame_end_facts cycles t : m_info (frame_end cycles t) = m_info t /\ m_cycle (frame_end cycles t) = m_cycle t - cycles /\
  m_nextPlayerCycle (frame_end cycles t) = (if m_nextPlayerCycle t =? never then never else m_nextPlayerCycle t - cycles).
Proof.
  unfold frame_end. cbv zeta. change (m_nextPlayerCycle (set_m_cycle (m_cycle t - cycles) t)) with (m_nextPlayerCycle t).
  destruct (m_nextPlayerCycle t =? never) eqn:N; (split; [reflexivity|]); (split; [reflexivity|]); [|reflexivity]. apply Z.eqb_eq in N. exact N.
Qed.

Lemma frame_ends s s' : m_cycle s <= 106 -> do_6502_frame s = Ok s' ->
  exists l t, plays (frame_cycles (m_info s)) (frame_start s) l t /\ frame_cycles (m_info s) <= m_cycle t /\ m_info s' = m_info s /\ m_cycle s' <= 106 /\
    m_nextPlayerCycle s' = (if m_nextPlayerCycle t =? never then never else m_nextPlayerCycle t - frame_cycles (m_info s)).
Proof.
  intros C E. rewrite frame_parts in E. apply bind_ok in E. destruct E as (t & E1 & E2). destruct (loop_plays _ _ _ E1) as (l & P & G).
  exists l, t. split; [exact P|]. split; [exact G|]. assert (E : s' = frame_end (frame_cycles (m_info s)) t) by congruence. clear E1 E2.
  destruct (plays_clock (frame_start s) (frame_started s C) l t P) as (j & K). pose proof K as ((J & Sc & Ev & Cy) & J1 & I).
  pose proof (frame_over (frame_start s) j t K G) as Ej. change (m_info (frame_start s)) with (m_info s) in *. pose proof (limit_lines s) as LL. cbv zeta in LL.
  destruct (frame_end_facts (frame_cycles (m_info s)) t) as (F1 & F2 & F3). rewrite E. split; [congruence|]. split; [lia|exact F3].
Qed.

(* ---- between frames ---- *)
(* the player is due in scanline p of the coming frame, or of a later one *)
Definition coming (p : Z) (s : asap) : Prop := m_cycle s <= 106 /\ 0 <= p /\ m_nextPlayerCycle s = 114 * p.

Lemma frame_rate p s l : 0 < i_fastplay (m_info s) -> coming p s -> frame_calls s l -> l = due_lines p (i_fastplay (m_info s)) (lines (m_info s)).
Proof.
  intros Hf (C & Hp & N) (pp & t & _ & P & G). set (s1 := set_m_pokeys pp (set_m_gtiaOrCovoxPlayedThisFrame false s)) in *.
  destruct (plays_rate (frame_start s1) p Hf (frame_started s1 C) l t Hp N P) as (j & q & K & _ & _ & ->).
  now rewrite (frame_over (frame_start s1) j t K G).
Qed.

Lemma frame_next p s cycles s' : 0 < i_fastplay (m_info s) -> coming p s -> do_frame s = Ok (cycles, s') ->
  m_info s' = m_info s /\ (exists l, frame_calls s l) /\
  exists q, next_due p (i_fastplay (m_info s)) (lines (m_info s)) (lines (m_info s) + q) /\ coming q s'.
Proof.
  intros Hf (C & Hp & N) E. unfold do_frame in E. cbv zeta in E. apply bind_ok in E. destruct E as (pp & E0 & E). change (m_pokeys (set_m_gtiaOrCovoxPlayedThisFrame false s)) with (m_pokeys s) in E0.
  set (s1 := set_m_pokeys pp (set_m_gtiaOrCovoxPlayedThisFrame false s)) in *. apply bind_ok in E. destruct E as (s2 & E1 & E).
  apply bind_ok in E. destruct E as (pp2 & _ & E). assert (s' = set_m_pokeys pp2 s2) as -> by congruence. clear E.
  destruct (frame_ends s1 s2 C E1) as (l & t & P & G & I & C2 & N2). change (m_info s1) with (m_info s) in *.
  split; [exact I|]. split; [exists l, pp, t; split; [exact E0|split; [exact P|exact G]]|].
  destruct (plays_rate (frame_start s1) p Hf (frame_started s1 C) l t Hp N P) as (j & q & K & Q & D & _).
  pose proof (frame_over (frame_start s1) j t K G) as ->. change (m_info (frame_start s1)) with (m_info s) in *. cbv zeta in D.
  pose proof (limit_lines s) as LL. cbv zeta in LL. exists (q - lines (m_info s)). replace (lines (m_info s) + (q - lines (m_info s))) with q by lia. split; [exact D|].
  split; [exact C2|]. split; [destruct D; lia|]. change (m_nextPlayerCycle (set_m_pokeys pp2 s2)) with (m_nextPlayerCycle s2). rewrite N2, Q.
  replace (114 * q =? never) with false by (unfold never; lia). lia.
Qed.

(* ---- whole songs ---- *)
Lemma same_coming p s t : same_machine s t -> coming p s -> coming p t.
Proof.
  unfold same_machine, coming. intros E (H1 & H2 & H3). pose proof (f_equal m_cycle E) as E1. pose proof (f_equal m_nextPlayerCycle E) as E2.
  cbn in E1, E2. rewrite <- E1, <- E2. auto.
Qed.
Lemma same_info s t : same_machine s t -> m_info s = m_info t.
Proof. intros E. exact (f_equal m_info E). Qed.

Lemma in_zrange n v : In v (zrange n) -> 0 <= v < Z.of_nat n.
Proof. unfold zrange. rewrite in_map_iff. intros (k & <- & H). apply in_seq in H. lia. Qed.

Lemma multiples_due f n : multiples f n = due_lines 0 f n.
Proof.
  unfold multiples, due_lines. apply filter_ext_in. intros a H. apply in_zrange in H. unfold is_due. rewrite Z.sub_0_r.
  replace (0 <=? a) with true by lia. reflexivity.
Qed.

Lemma zrange_add n m : zrange (n + m) = zrange n ++ map (Z.add (Z.of_nat n)) (zrange m).
Proof.
  unfold zrange. rewrite seq_app, map_app. f_equal. cbn [Nat.add]. rewrite map_map, <- (Nat.add_0_r n) at 1. generalize 0%nat as k.
  induction m as [|m IH]; intros k; [reflexivity|]. cbn [seq map]. f_equal; [lia|]. rewrite <- Nat.add_succ_r. apply IH.
Qed.

Lemma filter_map {A B} (f : B -> bool) (g : A -> B) l : filter f (map g l) = map g (filter (fun a => f (g a)) l).
Proof. induction l as [|a l IH]; [reflexivity|]. cbn [map filter]. destruct (f (g a)); cbn [map]; now rewrite IH. Qed.

Lemma due_again f N p i : 0 < f -> 0 <= N -> 0 <= i -> next_due 0 f N (N + p) -> is_due p f i = is_due 0 f (N + i).
Proof.
  intros Hf HN Hi (H1 & H2 & H3). apply is_due_iff in H2. destruct H2 as [_ H2]. rewrite Z.sub_0_r in H2.
  destruct (Z_lt_ge_dec i p) as [L|G].
  - rewrite (H3 (N + i)) by lia. apply is_due_false. now left.
  - unfold is_due. rewrite Z.sub_0_r. replace (p <=? i) with true by lia. replace (0 <=? N + i) with true by lia. cbn [andb].
    pose proof (mod_shift f (N + p) (i - p) Hf H2) as M. replace (i - p + (N + p)) with (N + i) in M by lia.
    destruct (Z.eqb_spec ((i - p) mod f) 0), (Z.eqb_spec ((N + i) mod f) 0); tauto.
Qed.

Lemma due_lines_more f N p k : 0 < f -> 0 <= N -> 0 <= k -> next_due 0 f N (N + p) ->
  due_lines 0 f (N + k) = due_lines 0 f N ++ map (Z.add N) (due_lines p f k).
Proof.
  intros Hf HN Hk D. unfold due_lines. rewrite Z2Nat.inj_add by lia. rewrite zrange_add, filter_app, filter_map, Z2Nat.id by lia. do 2 f_equal.
  apply filter_ext_in. intros i Hi. apply in_zrange in Hi. symmetry. apply due_again; auto; lia.
Qed.

Lemma next_due_more f N p k q : 0 < f -> 0 <= N -> 0 <= k -> next_due 0 f N (N + p) -> next_due p f k (k + q) -> next_due 0 f (N + k) (N + k + q).
Proof.
  intros Hf HN Hk D (H1 & H2 & H3). split; [lia|]. split.
  - rewrite <- Z.add_assoc, <- due_again with (p := p); auto; lia.
  - intros i Hi. replace i with (N + (i - N)) by lia. rewrite <- due_again with (p := p); auto; [apply H3; lia|lia].
Qed.

Lemma lines_pos i : 0 < lines i.
Proof. unfold lines. destruct (i_ntsc i); lia. Qed.

Lemma song_rate n s l t : 0 < i_fastplay (m_info s) -> coming 0 s -> song_calls n s l t ->
  m_info t = m_info s /\ l = due_lines 0 (i_fastplay (m_info s)) (Z.of_nat n * lines (m_info s)) /\
  exists p, next_due 0 (i_fastplay (m_info s)) (Z.of_nat n * lines (m_info s)) (Z.of_nat n * lines (m_info s) + p) /\ coming p t.
Proof.
  intros Hf C S. revert Hf C. induction S as [s t E|n s l t l1 cycles t1 u S IH F D E]; intros Hf C.
  - split; [symmetry; now apply same_info|]. split; [reflexivity|]. exists 0. split; [|eapply same_coming; eauto].
    split; [lia|]. split; [apply is_due_iff; split; [lia|]; apply Z.mod_0_l; lia|]. intros i Hi. lia.
  - destruct (IH Hf C) as (I & -> & p & N & Cp). set (f := i_fastplay (m_info s)) in *. pose proof (lines_pos (m_info s)) as L. set (k := lines (m_info s)) in *.
    assert (Hf' : 0 < i_fastplay (m_info t)) by (rewrite I; exact Hf). pose proof (frame_rate p t l1 Hf' Cp F) as ->.
    destruct (frame_next p t cycles t1 Hf' Cp D) as (I1 & _ & q & N1 & Cq). rewrite I in N1, I1 |- *. fold f in N1 |- *. fold k in N1 |- *.
    replace (Z.of_nat (Datatypes.S n) * k) with (Z.of_nat n * k + k) by lia. split; [rewrite <- (same_info _ _ E); exact I1|].
    split; [symmetry; apply due_lines_more; auto; nia|]. exists q. split; [apply next_due_more with (p := p); auto; nia|]. eapply same_coming; eauto.
Qed.

Lemma later_calls n s t : 0 < i_fastplay (m_info s) -> coming 0 s -> frames_later n s t -> exists l, song_calls n s l t.
Proof.
  intros Hf C L. revert Hf C. induction L as [s t E|n s t cycles t1 u L IH D E]; intros Hf C; [exists []; now constructor|].
  destruct (IH Hf C) as (l & S). destruct (song_rate n s l t Hf C S) as (I & _ & p & _ & Cp).
  destruct (frame_next p t cycles t1 ltac:(rewrite I; exact Hf) Cp D) as (_ & (l1 & F) & _). eexists. eapply song_frame; eauto.
Qed.

Lemma song_multiples n s l t : 0 < i_fastplay (m_info s) -> coming 0 s -> song_calls n s l t ->
  l = multiples (i_fastplay (m_info s)) (Z.of_nat n * lines (m_info s)).
Proof. intros Hf C S. rewrite multiples_due. now destruct (song_rate n s l t Hf C S) as (_ & -> & _). Qed.

(* ---- starting a song ---- *)
Lemma init_frames_S n s : init_frames (S n) s = bind (do_6502_frame s) (fun s => if m_pc s =? 53760 then Ok (true, s) else init_frames n s).
Proof. reflexivity. Qed.
Lemma init_frames_clock n s b s' : m_cycle s <= 106 -> init_frames n s = Ok (b, s') -> m_cycle s' <= 106 /\ m_info s' = m_info s.
Proof.
  revert s. induction n as [|n IH]; intros s C E; [injection E as _ <-; auto|].
  rewrite init_frames_S in E. apply bind_ok in E. destruct E as (s1 & E1 & E). destruct (frame_ends s s1 C E1) as (_ & _ & _ & _ & I & C1 & _).
  clear E1. destruct (m_pc s1 =? 53760); [injection E as _ <-; auto|]. destruct (IH s1 C1 E) as [C2 I2]. clear E. split; [exact C2|now rewrite I2].
Qed.

Definition entering (pc a x y : Z) (s : asap) : asap :=
  let s := set_m_y (Z.land y 255) (set_m_x (Z.land x 255) (set_m_a (Z.land a 255) (set_m_pc pc s))) in
  let m := st (st (st (m_memory s) 53760 210) 510 255) 511 209 in
  set_m_s 253 (set_m_memory m s).
Lemma init_parts pc a x y s : do_6502_init pc a x y s = init_frames 50 (entering pc a x y s).
Proof. unfold do_6502_init, entering. generalize 50%nat. intros n. reflexivity. Qed.
Lemma init_clock pc a x y s b s' : m_cycle s <= 106 -> do_6502_init pc a x y s = Ok (b, s') -> m_cycle s' <= 106 /\ m_info s' = m_info s.
Proof.
  intros C. rewrite init_parts. generalize 50%nat. intros n E. exact (init_frames_clock n (entering pc a x y s) b s' C E).
Qed.

Lemma then_clock pc a x y (m : outcome (bool * asap)) s b s' : (forall b0 s0, m = Ok (b0, s0) -> m_cycle s0 <= 106 /\ m_info s0 = m_info s) ->
  then_init pc a x y m = Ok (b, s') -> m_cycle s' <= 106 /\ m_info s' = m_info s.
Proof.
  intros H E. unfold then_init in E. apply bind_ok in E. destruct E as ([b0 s0] & E0 & E). destruct (H b0 s0 E0) as [C I].
  destruct b0; [|assert (s' = s0) as -> by congruence; auto]. destruct (init_clock _ _ _ _ _ _ _ C E) as [C1 I1]. split; [exact C1|congruence].
Qed.

Lemma play_clock song s b s' : m_cycle s <= 106 -> play_init song s = Ok (b, s') -> m_cycle s' <= 106 /\ m_info s' = m_info s.
Proof.
  intros C E. unfold play_init in E. cbv zeta in E.
  assert (T : forall pc a x y pc1 a1 x1 y1 b1 s1, then_init pc a x y (do_6502_init pc1 a1 x1 y1 s) = Ok (b1, s1) -> m_cycle s1 <= 106 /\ m_info s1 = m_info s).
  { intros. eapply then_clock; [|eassumption]. intros. eapply init_clock; eauto. }
  destruct (i_type (m_info s));
    lazymatch type of E with
    | do_6502_init _ _ _ _ _ = _ => exact (init_clock _ _ _ _ _ _ _ C E)
    | then_init _ _ _ _ _ = _ => exact (T _ _ _ _ _ _ _ _ _ _ E)
    | Ok _ = _ => injection E as _ <-; split; [exact C|reflexivity]
    | bind (get _ _) _ = _ => apply bind_ok in E; destruct E as (pos & _ & E);
      lazymatch type of E with
      | do_6502_init _ _ _ _ _ = _ => exact (init_clock _ _ _ _ _ _ _ C E)
      | _ => exact (T _ _ _ _ _ _ _ _ _ _ E)
      end
    | _ => apply bind_ok in E; destruct E as ([b0 s0] & E0 & E); destruct (T _ _ _ _ _ _ _ _ _ _ E0) as [C0 I0]; clear E0;
      destruct b0; injection E as _ <-; split; assumption
    end.
Qed.

Lemma prepared_W song duration s : W (play_prepare song duration s) (fun s2 => m_cycle s2 = 0 /\ m_info s2 = m_info s).
Proof.
  unfold play_prepare. cbv zeta. set (s1 := set_m_covox _ _). assert (H : m_cycle s1 = 0 /\ m_info s1 = m_info s) by (split; reflexivity). clearbody s1.
  apply W_bind. apply W_true. intros pp. exact H.
Qed.
Lemma prepared song duration s s2 : play_prepare song duration s = Ok s2 -> m_cycle s2 = 0 /\ m_info s2 = m_info s.
Proof. intros E. pose proof (prepared_W song duration s) as H. rewrite E in H. exact H. Qed.
Lemma started_from (init : asap -> outcome (bool * asap)) song duration s s1 :
  (forall s b s', m_cycle s <= 106 -> init s = Ok (b, s') -> m_cycle s' <= 106 /\ m_info s' = m_info s) ->
  (s <- play_prepare song duration s ;; '(b, s) <- init s ;; Ok (b, if (b : bool) then set_m_nextPlayerCycle 0 (api_mute 0 s) else s)) = Ok (true, s1) ->
  coming 0 s1 /\ m_info s1 = m_info s.
Proof.
  intros H E. apply bind_ok in E. destruct E as (s2 & E2 & E). apply bind_ok in E. destruct E as ([b s3] & E3 & E).
  assert (b = true) as -> by congruence. assert (s1 = set_m_nextPlayerCycle 0 (api_mute 0 s3)) as -> by congruence. clear E.
  pose proof (prepared song duration s s2 E2) as P. clear E2.
  destruct P as [P1 P2]. destruct (H s2 true s3 ltac:(lia) E3) as [C I].
  split; [split; [exact C|split; [lia|reflexivity]]|]. change (m_info s3 = m_info s). now rewrite I.
Qed.
Lemma started song duration s s1 : api_play_song song duration s = Ok (true, s1) -> coming 0 s1 /\ m_info s1 = m_info s.
Proof.
  unfold api_play_song. destruct ((song <? 0) || (i_songs (m_info s) <=? song)); [discriminate|]. apply started_from. exact (play_clock song).
Qed.

(* while a song is being initialised the player is not called *)
Lemma not_called s l t : m_cycle s <= 106 -> m_nextPlayerCycle s = never -> plays (frame_cycles (m_info s)) (frame_start s) l t -> l = [] /\ m_nextPlayerCycle t = never.
Proof.
  intros C N P. pose proof (frame_cycles_range (m_info s)) as R.
  assert (X : forall l t, plays (frame_cycles (m_info s)) (frame_start s) l t -> exists j, at_clock (frame_start s) j t).
  { intros l0 t0 P0. exact (plays_clock (frame_start s) (frame_started s C) l0 t0 P0). }
  induction P as [|l t t1 t2 P0 IH Lt G P E|l t t1 t2 P0 IH Lt G P E]; [split; [reflexivity|exact N]| |];
    destruct IH as [-> Nt]; destruct (X _ _ P0) as (j & (K & J & I));
    destruct (step_clock j t t1 t2 K P E) as (I2 & [(_ & G2 & C2 & Q2)|(B & C2 & [(G2 & B2 & Q2)|(G2 & B2 & Q2)])]); try contradiction.
  - split; [reflexivity|congruence].
  - split; [reflexivity|congruence].
  - exfalso. assert (L312 : forall i, lines i <= 312) by (intros i; unfold lines; destruct (i_ntsc i); lia). specialize (L312 (m_info (frame_start s))). rewrite Nt in B2. unfold never in B2. lia.
Qed.

(* ---- how many calls ---- *)
Lemma len_filter_app {A} (g : A -> bool) l1 l2 : len (filter g (l1 ++ l2)) = len (filter g l1) + len (filter g l2).
Proof. unfold len. rewrite filter_app, app_length. lia. Qed.

Lemma multiples_len f n : 0 < f -> 0 <= n -> len (multiples f n) = (n + f - 1) / f.
Proof.
  intros Hf. unfold multiples. revert n. apply natlike_ind; [|].
  - cbn [Z.to_nat zrange seq map filter]. change (len []) with 0. symmetry. apply Z.div_small. lia.
  - intros n Hn IH. rewrite Z2Nat.inj_succ by lia. rewrite zrange_S, len_filter_app, IH, Z2Nat.id by lia. cbn [filter].
    pose proof (Z.div_mod n f ltac:(lia)) as DM. pose proof (Z.mod_pos_bound n f Hf) as MB. set (q := n / f) in *. set (r := n mod f) in *.
    destruct (r =? 0) eqn:R.
    + assert (r = 0) by lia. rewrite <- (Z.div_unique (n + f - 1) f q (f - 1)) by lia. rewrite <- (Z.div_unique (Z.succ n + f - 1) f (q + 1) 0) by lia. reflexivity.
    + rewrite <- (Z.div_unique (n + f - 1) f (q + 1) (r - 1)) by lia. rewrite <- (Z.div_unique (Z.succ n + f - 1) f (q + 1) r) by lia. change (len []) with 0. lia.
Qed.

(* ---- when the calls happen ---- *)
Lemma on_time s l t : m_cycle s <= 106 -> plays (frame_cycles (m_info s)) (frame_start s) l t -> calls_player t ->
  let j := m_nextScanlineCycle t / 114 in 114 * j <= m_cycle t <= 114 * j + 106.
Proof.
  intros C P K. destruct (plays_clock (frame_start s) (frame_started s C) l t P) as (j & (J & Sc & Ev & Cy) & _). destruct K as (_ & L & _). unfold line_starts in L.
  cbv zeta. replace (m_nextScanlineCycle t / 114) with j by (rewrite Sc, Z.mul_comm, Z.div_mul; lia). lia.
Qed.

Lemma init_never s s' : m_cycle s <= 106 -> m_nextPlayerCycle s = never -> do_6502_frame s = Ok s' -> m_cycle s' <= 106 /\ m_nextPlayerCycle s' = never.
Proof.
  intros C N E. destruct (frame_ends s s' C E) as (l & t & P & G & I & C1 & N1). split; [exact C1|].
  destruct (not_called s l t C N P) as [_ Nt]. rewrite N1, Nt. reflexivity.
Qed.

Lemma prepared_never song duration s s2 : play_prepare song duration s = Ok s2 -> m_cycle s2 = 0 /\ m_nextPlayerCycle s2 = never.
Proof.
  intros E. assert (H : W (play_prepare song duration s) (fun s2 => m_cycle s2 = 0 /\ m_nextPlayerCycle s2 = never)); [|now rewrite E in H].
  unfold play_prepare. cbv zeta. set (s1 := set_m_covox _ _). assert (H : m_cycle s1 = 0 /\ m_nextPlayerCycle s1 = never) by (split; reflexivity). clearbody s1.
  apply W_bind. apply W_true. intros pp. exact H.
Qed.

(* ---- the interval of a loaded module ---- *)
Lemma load_fastplay fuel name module s s' : bytes module -> len (i_songPos (m_info s)) = 32 -> asap_load fuel name module s = Ok s' -> 1 <= i_fastplay (m_info s') <= 32767.
Proof.
  intros Hb Hp E. unfold asap_load in E. destruct (api_load fuel (m_info s) name module) as [inf| | |] eqn:L; cbn [bind] in E; try discriminate E.
  apply api_load_result in L; [|exact Hb|exact Hp].
  assert (F : 1 <= i_fastplay inf <= 32767).
  { destruct L as [W|(ext & _ & W & _)]; [exact (sl_fastplay _ _ W)|]. pose proof (nl_fastplay _ W) as K. cbn [In] in K. lia. }
  clear L. destruct (player_routine inf) as [r|].
  - destruct (get_word r 2) as [p| | |]; cbn [bind] in E; try discriminate E. destruct (get_word r 4) as [q| | |]; cbn [bind] in E; try discriminate E.
    cbv zeta in E. destruct (_ <=? q); [discriminate E|]. repeat (apply bind_ok in E; destruct E as (? & _ & E)). injection E as <-. cbn [m_info set_m_memory set_m_info].
    destruct (_ <? 0); exact F.
  - apply bind_ok in E. destruct E as (? & _ & E). injection E as <-. exact F.
Qed.
