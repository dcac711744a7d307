(* Consequences of the agreement with CpuSpec.v: arithmetic, the stack, interrupts, addressing *)
From Verif Require Import Base BaseFacts Loop MemModel InfoModel InfoProofs PokeyModel MachineModel CpuSpec CpuArith CpuProofs PokeyProofs MachineProofs FrameProofs.

(* ---- arithmetic ---- *)
Definition bcdb (v : Z) : bool := (v / 16 <=? 9) && (v mod 16 <=? 9).
Lemma bcd_byte v : bcd v -> byte v. Proof. unfold bcd, byte. lia. Qed.
Lemma bcd_b v : bcd v -> bcdb v = true. Proof. unfold bcd, bcdb. intros. apply andb_true_iff. split; lia. Qed.
Lemma b_bcd v : 0 <= v -> bcdb v = true -> bcd v.
Proof. unfold bcd, bcdb. rewrite andb_true_iff. intros. lia. Qed.

Definition bcds : list Z := filter bcdb (zrange 256).
Definition all_pairs (f : Z -> Z -> bool) : bool := forallb (fun a => forallb (f a) bcds) bcds.

Lemma bcd_in v : bcd v -> In v bcds.
Proof.
  intros H. apply filter_In. split; [|now apply bcd_b]. apply zrange_In. apply bcd_byte in H. unfold byte in H. lia.
Qed.
Lemma all_pairs_spec f : all_pairs f = true -> forall a v, bcd a -> bcd v -> f a v = true.
Proof.
  unfold all_pairs. generalize bcd_in. generalize bcds. intros l I H a v Ha Hv.
  rewrite forallb_forall in H. specialize (H _ (I _ Ha)). rewrite forallb_forall in H. exact (H _ (I _ Hv)).
Qed.

Definition sum_row (k : bool) (a v : Z) : bool :=
  let c := adc v (mkCpu a 0 0 0 0 false false true false false k mem0) in
  (0 <=? A c) && bcdb (A c) && (dec (A c) + 100 * b2z (fC c) =? dec a + dec v + b2z k).
Definition difference_row (k : bool) (a v : Z) : bool :=
  let c := sbc v (mkCpu a 0 0 0 0 false false true false false k mem0) in
  (0 <=? A c) && bcdb (A c) && (dec (A c) - 100 * (1 - b2z (fC c)) =? dec a - dec v - (1 - b2z k)).
Lemma sum_rows k : all_pairs (sum_row k) = true. Proof. destruct k; vm_compute; reflexivity. Qed.
Lemma difference_rows k : all_pairs (difference_row k) = true. Proof. destruct k; vm_compute; reflexivity. Qed.

Lemma adc_decimal c v : fD c = true -> bcd (A c) -> bcd v ->
  bcd (A (adc v c)) /\ dec (A (adc v c)) + 100 * b2z (fC (adc v c)) = dec (A c) + dec v + b2z (fC c).
Proof.
  intros D Ha Hv. pose proof (all_pairs_spec _ (sum_rows (fC c)) _ _ Ha Hv) as S. unfold sum_row in S. cbv zeta in S.
  set (d := mkCpu (A c) 0 0 0 0 false false true false false (fC c) mem0) in S.
  assert (EA : A (adc v d) = A (adc v c)) by (unfold adc; rewrite D; reflexivity).
  assert (EC : fC (adc v d) = fC (adc v c)) by (unfold adc; rewrite D; reflexivity).
  rewrite EA, EC in S. clear EA EC. revert S. generalize (A (adc v c)) (b2z (fC (adc v c))). intros x y.
  rewrite !andb_true_iff, Z.leb_le, Z.eqb_eq. intros [[S1 S2] S3]. split; [now apply b_bcd|exact S3].
Qed.
Lemma sbc_decimal c v : fD c = true -> bcd (A c) -> bcd v ->
  bcd (A (sbc v c)) /\ dec (A (sbc v c)) - 100 * (1 - b2z (fC (sbc v c))) = dec (A c) - dec v - (1 - b2z (fC c)).
Proof.
  intros D Ha Hv. pose proof (all_pairs_spec _ (difference_rows (fC c)) _ _ Ha Hv) as S. unfold difference_row in S. cbv zeta in S.
  set (d := mkCpu (A c) 0 0 0 0 false false true false false (fC c) mem0) in S.
  assert (EA : A (sbc v d) = A (sbc v c)) by (unfold sbc; rewrite D; reflexivity).
  assert (EC : fC (sbc v d) = fC (sbc v c)) by (unfold sbc; reflexivity).
  rewrite EA, EC in S. clear EA EC. revert S. generalize (A (sbc v c)) (b2z (fC (sbc v c))). intros x y.
  rewrite !andb_true_iff, Z.leb_le, Z.eqb_eq. intros [[S1 S2] S3]. split; [now apply b_bcd|exact S3].
Qed.

(* the decimal flag of the emulator *)
Definition decimal (s : asap) : Prop := Z.land (m_vdi s) 8 <> 0.

Lemma decimal_view s : cpu_ok s -> (decimal s <-> fD (view s) = true).
Proof.
  intros H. unfold decimal. pose proof (vdi_d s (ok_vdi _ H)) as V. change (fD (view s)) with (Z.testbit (m_vdi s) 3).
  destruct (Z.testbit (m_vdi s) 3); cbn [negb] in V; split; intros; try reflexivity; try discriminate; lia.
Qed.

Lemma code_adc_binary v s : cpu_ok s -> byte v -> ~ decimal s ->
  let s' := add_with_carry v s in
  m_a s' + 256 * m_c s' = m_a s + v + m_c s /\ byte (m_a s') /\
  fV (view s') = overflows (signed (m_a s) + signed v + m_c s) /\ fN (view s') = (128 <=? m_a s') /\ fZ (view s') = (m_a s' =? 0).
Proof.
  intros H Hv D s'. destruct (view_adc v s H Hv) as (V & C & _). fold s' in V, C. rewrite (decimal_view s H) in D.
  pose proof (ok_a _ H) as Ba. pose proof (ok_c _ H) as Bc. pose proof (c_eq1 _ H) as Ec. pose proof (c_eq1 _ C) as Ec'. unfold byte in *.
  change (m_c s' =? 1) with (fC (view s')) in Ec'. change (m_c s =? 1) with (fC (view s)) in Ec. change (m_a s') with (A (view s')). rewrite Ec', V.
  unfold adc. destruct (fD (view s)); [exfalso; apply D; reflexivity|]. cbn [negb]. rewrite <- Ec. change (A (view s)) with (m_a s).
  cbn [A fC fV fN fZ wA wNZ wZ wN wC wV]. unfold w8.
  split; [|split; [lia|split; [reflexivity|split; reflexivity]]].
  destruct (255 <? m_a s + v + m_c s) eqn:E; cbn [b2z]; lia.
Qed.

Lemma code_sbc_binary v s : cpu_ok s -> byte v -> ~ decimal s ->
  let s' := subtract_with_carry v s in
  m_a s' - 256 * (1 - m_c s') = m_a s - v - (1 - m_c s) /\ byte (m_a s') /\
  fV (view s') = overflows (signed (m_a s) - signed v - (1 - m_c s)) /\ fN (view s') = (128 <=? m_a s') /\ fZ (view s') = (m_a s' =? 0).
Proof.
  intros H Hv D s'. destruct (view_sbc v s H Hv) as (V & C & _). fold s' in V, C. rewrite (decimal_view s H) in D.
  pose proof (ok_a _ H) as Ba. pose proof (ok_c _ H) as Bc. pose proof (c_eq1 _ H) as Ec. pose proof (c_eq1 _ C) as Ec'. unfold byte in *.
  change (m_c s' =? 1) with (fC (view s')) in Ec'. change (m_c s =? 1) with (fC (view s)) in Ec. change (m_a s') with (A (view s')). rewrite Ec', V.
  unfold sbc. destruct (fD (view s)); [exfalso; apply D; reflexivity|]. cbn [negb]. rewrite <- Ec. change (A (view s)) with (m_a s).
  cbn [A fC fV fN fZ wA wNZ wZ wN wC wV]. unfold w8.
  split; [|split; [lia|split; [f_equal; lia|split; reflexivity]]].
  destruct (0 <=? m_a s - v + m_c s - 1) eqn:E; cbn [b2z]; lia.
Qed.

Lemma code_adc_decimal v s : cpu_ok s -> decimal s -> bcd (m_a s) -> bcd v ->
  let s' := add_with_carry v s in bcd (m_a s') /\ dec (m_a s') + 100 * m_c s' = dec (m_a s) + dec v + m_c s.
Proof.
  intros H D Ha Hv s'. destruct (view_adc v s H (bcd_byte v Hv)) as (V & C & _). fold s' in V, C. rewrite (decimal_view s H) in D.
  rewrite (c_eq1 _ H), (c_eq1 _ C). change (m_c s' =? 1) with (fC (view s')). change (m_c s =? 1) with (fC (view s)). change (m_a s') with (A (view s')).
  rewrite V. now apply adc_decimal.
Qed.
Lemma code_sbc_decimal v s : cpu_ok s -> decimal s -> bcd (m_a s) -> bcd v ->
  let s' := subtract_with_carry v s in bcd (m_a s') /\ dec (m_a s') - 100 * (1 - m_c s') = dec (m_a s) - dec v - (1 - m_c s).
Proof.
  intros H D Ha Hv s'. destruct (view_sbc v s H (bcd_byte v Hv)) as (V & C & _). fold s' in V, C. rewrite (decimal_view s H) in D.
  rewrite (c_eq1 _ H), (c_eq1 _ C). change (m_c s' =? 1) with (fC (view s')). change (m_c s =? 1) with (fC (view s)). change (m_a s') with (A (view s')).
  rewrite V. now apply sbc_decimal.
Qed.

(* ---- the stack ---- *)
Lemma same_stack_less n m c t : same_stack n c t -> m <= n -> same_stack m c t.
Proof. intros [H1 H2] L. split; [exact H1|]. intros i Hi. apply H2. lia. Qed.

Lemma pull_push v c t : 0 <= SP c < 256 -> same_stack 1 (push_byte v c) t -> pull_byte t = (v, wSP (SP c) t).
Proof.
  intros H [S1 S2]. specialize (S2 1 ltac:(lia)). unfold pull_byte. cbv zeta. unfold push_byte in *. cbn [SP M wSP wM] in *. rewrite S1.
  replace (w8 (w8 (SP c - 1) + 1)) with (SP c) in * by (unfold w8; lia). rewrite S2, ld_st_same. reflexivity.
Qed.

(* one level deeper *)
Lemma same_stack_pop n v c t : 0 <= SP c < 256 -> 0 <= n < 256 -> same_stack (n + 1) (push_byte v c) t -> same_stack n c (wSP (SP c) t).
Proof.
  intros H Hn [S1 S2]. split; [reflexivity|]. intros i Hi. specialize (S2 (i + 1) ltac:(lia)). unfold push_byte in *. cbn [SP M wSP wM] in *.
  replace (w8 (w8 (SP c - 1) + (i + 1))) with (w8 (SP c + i)) in S2 by (unfold w8; lia). rewrite S2.
  apply ld_st_other; unfold w8; lia.
Qed.

Lemma push_byte_sp v c : SP (push_byte v c) = w8 (SP c - 1). Proof. reflexivity. Qed.
Lemma w8_range v : 0 <= w8 v < 256. Proof. unfold w8. lia. Qed.

Lemma pull_push_word w c t : 0 <= SP c < 256 -> 0 <= w < 65536 -> same_stack 2 (push_word w c) t -> pull_word t = (w, wSP (SP c) t).
Proof.
  intros H Hw S. unfold push_word in S.
  assert (R : 0 <= SP (push_byte (w8 (w / 256)) c) < 256) by apply w8_range.
  unfold pull_word. rewrite (pull_push _ _ _ R (same_stack_less _ 1 _ _ S ltac:(lia))).
  pose proof (same_stack_pop 1 _ _ _ R ltac:(lia) S) as S'.
  rewrite (pull_push _ _ _ H S'). f_equal. unfold w8. lia.
Qed.

(* the status byte and back *)
Lemma status_flags (b : bool) c d : flags_of (set_status (status b c) d) = flags_of c.
Proof.
  unfold flags_of, set_status, status. cbn [fN fV fD fI fZ fC].
  destruct (fN c), (fV c), (fD c), (fI c), (fZ c), (fC c), b; reflexivity.
Qed.

Lemma flags_fI a b : flags_of a = flags_of b -> fI a = fI b.
Proof. unfold flags_of. intros E. injection E. auto. Qed.

Lemma sp_view s : cpu_ok s -> 0 <= SP (view s) < 256. Proof. intros H. apply (ok_s _ H). Qed.
Lemma pc_view s : 0 <= PC (view s) < 65536. Proof. unfold view. cbn [PC]. lia. Qed.

(* fetching and executing opcode op at the program counter *)
Definition at_opcode (op : Z) (s : asap) : Prop := 0 <= m_pc s <= 65533 /\ ld (m_memory s) (m_pc s) = op.

Ltac row_tac := unfold documented, alu, shift, modify; cbn [app]; repeat (first [left; reflexivity | right]).

Lemma run_at op m am n s : In (op, m, am, n, false) documented -> uses_memory m = false -> m <> JMPI -> cpu_ok s -> at_opcode op s ->
  exists s', execute s = Ok s' /\ view s' = run_irq (op, m, am, n, false) (is_irq s) (view s) /\ rest s' = rest s.
Proof.
  intros I U J H [P O]. destruct (execute_documented _ s I H) as (s' & E & V & _ & R).
  - unfold runnable. split; [lia|]. split; [destruct am; cbn [ilen]; lia|]. split; [exact O|]. split; [congruence|contradiction].
  - exists s'. auto.
Qed.

Lemma pha_pla s t : cpu_ok s -> cpu_ok t -> at_opcode 72 s -> at_opcode 104 t ->
  forall s1, execute s = Ok s1 -> same_stack 1 (view s1) (view t) ->
  exists t1, execute t = Ok t1 /\ m_a t1 = m_a s /\ m_s t1 = m_s s.
Proof.
  intros Hs Ht Os Ot s1 E S.
  destruct (run_at 72 PHA IMP 3 s ltac:(row_tac) eq_refl ltac:(discriminate) Hs Os) as (s1' & E' & V & _). rewrite E in E'. injection E' as <-.
  destruct (run_at 104 PLA IMP 4 t ltac:(row_tac) eq_refl ltac:(discriminate) Ht Ot) as (t1 & Et & Vt & _). exists t1. split; [exact Et|].
  change (m_a t1) with (A (view t1)). change (m_s t1) with (SP (view t1)). rewrite Vt.
  unfold run_irq, poll, run, perform, polls. cbn [andb]. rewrite V in S. unfold run_irq, poll, run, perform, polls in S. cbn [andb] in S.
  assert (S' : same_stack 1 (push_byte (m_a s) (wPC (w16 (PC (view s) + ilen IMP)) (view s))) (wPC (w16 (PC (view t) + ilen IMP)) (view t))) by exact S.
  rewrite (pull_push _ _ _ (sp_view s Hs) S'). split; reflexivity.
Qed.

Definition quiet (s t : asap) : Prop := is_irq t = false \/ fI (view s) = true.

Lemma quiet_poll s t m c : quiet s t -> fI c = fI (view s) -> poll m (is_irq t) c = false.
Proof. intros Q E. unfold poll. rewrite E. destruct Q as [-> | ->]; [rewrite andb_false_r; reflexivity|apply andb_false_r]. Qed.

Lemma php_plp s t : cpu_ok s -> cpu_ok t -> at_opcode 8 s -> at_opcode 40 t -> quiet s t ->
  forall s1, execute s = Ok s1 -> same_stack 1 (view s1) (view t) ->
  exists t1, execute t = Ok t1 /\ flags_of (view t1) = flags_of (view s) /\ m_s t1 = m_s s.
Proof.
  intros Hs Ht Os Ot Q s1 E S.
  destruct (run_at 8 PHP IMP 3 s ltac:(row_tac) eq_refl ltac:(discriminate) Hs Os) as (s1' & E' & V & _). rewrite E in E'. injection E' as <-.
  destruct (run_at 40 PLP IMP 4 t ltac:(row_tac) eq_refl ltac:(discriminate) Ht Ot) as (t1 & Et & Vt & _). exists t1. split; [exact Et|].
  change (m_s t1) with (SP (view t1)). rewrite Vt. unfold run_irq.
  assert (R : run (40, PLP, IMP, 4, false) (view t) = set_status (status true (view s)) (wSP (SP (view s)) (wPC (w16 (PC (view t) + 1)) (view t)))).
  { unfold run, perform. rewrite V in S. unfold run_irq, poll, run, perform, polls in S. cbn [andb] in S.
    assert (S' : same_stack 1 (push_byte (status true (view s)) (wPC (w16 (PC (view s) + ilen IMP)) (view s))) (wPC (w16 (PC (view t) + ilen IMP)) (view t))) by exact S.
    rewrite (pull_push _ _ _ (sp_view s Hs) S'). reflexivity. }
  rewrite R. pose proof (status_flags true (view s) (wSP (SP (view s)) (wPC (w16 (PC (view t) + 1)) (view t)))) as F.
  rewrite (quiet_poll s t PLP); [|exact Q|]; [split; [exact F|reflexivity]|].
  unfold flags_of in F. injection F. intros. assumption.
Qed.

Lemma jsr_rts s t : cpu_ok s -> cpu_ok t -> at_opcode 32 s -> at_opcode 96 t ->
  forall s1, execute s = Ok s1 -> same_stack 2 (view s1) (view t) ->
  exists t1, execute t = Ok t1 /\ PC (view t1) = w16 (m_pc s + 3) /\ m_s t1 = m_s s.
Proof.
  intros Hs Ht Os Ot s1 E S.
  destruct (run_at 32 JSR ABS 6 s ltac:(row_tac) eq_refl ltac:(discriminate) Hs Os) as (s1' & E' & V & _). rewrite E in E'. injection E' as <-.
  destruct (run_at 96 RTS IMP 6 t ltac:(row_tac) eq_refl ltac:(discriminate) Ht Ot) as (t1 & Et & Vt & _). exists t1. split; [exact Et|].
  change (m_s t1) with (SP (view t1)). rewrite Vt.
  unfold run_irq, poll, run, perform, polls. cbn [andb]. rewrite V in S. unfold run_irq, poll, run, perform, polls in S. cbn [andb] in S.
  assert (S' : same_stack 2 (push_word (w16 (PC (view s) + 2)) (wPC (w16 (PC (view s) + ilen ABS)) (view s))) (wPC (w16 (PC (view t) + ilen IMP)) (view t))) by exact S.
  assert (W : 0 <= w16 (PC (view s) + 2) < 65536) by (unfold w16; lia).
  rewrite (pull_push_word _ _ _ (sp_view s Hs) W S'). cbn [PC SP wPC wSP]. split; [|reflexivity].
  destruct Os as [P _]. unfold view, w16. cbn [PC]. lia.
Qed.

(* RTI after the interrupt sequence *)
Lemma interrupt_rti (b : bool) c t : 0 <= SP c < 256 -> 0 <= PC c < 65536 -> same_stack 3 (interrupt b c) t ->
  forall pc, let r := perform RTI 0 t (wPC pc t) in flags_of r = flags_of c /\ PC r = PC c /\ SP r = SP c.
Proof.
  intros H1 H2 S pc r. subst r. unfold perform.
  assert (S' : same_stack 3 (push_byte (status b c) (push_word (PC c) c)) (wPC pc t)).
  { assert (E : status b (push_word (PC c) c) = status b c) by reflexivity. unfold interrupt in S. rewrite E in S. exact S. }
  assert (R : 0 <= SP (push_word (PC c) c) < 256) by apply w8_range.
  rewrite (pull_push _ _ _ R (same_stack_less _ 1 _ _ S' ltac:(lia))).
  pose proof (same_stack_pop 2 _ _ _ R ltac:(lia) S') as S2.
  set (u := set_status (status b c) (wSP (SP (push_word (PC c) c)) (wPC pc t))).
  assert (S3 : same_stack 2 (push_word (PC c) c) u) by exact S2.
  rewrite (pull_push_word _ _ _ H1 H2 S3). split; [|split; reflexivity].
  exact (status_flags b c (wSP (SP (push_word (PC c) c)) (wPC pc t))).
Qed.

Lemma run_rti c : run (64, RTI, IMP, 6, false) c = perform RTI 0 c (wPC (w16 (PC c + ilen IMP)) c). Proof. reflexivity. Qed.

Lemma rti_resumes (b : bool) c t : cpu_ok t -> at_opcode 64 t -> (is_irq t = false \/ fI c = true) -> 0 <= SP c < 256 -> 0 <= PC c < 65536 ->
  same_stack 3 (interrupt b c) (view t) ->
  exists t1, execute t = Ok t1 /\ flags_of (view t1) = flags_of c /\ PC (view t1) = PC c /\ SP (view t1) = SP c.
Proof.
  intros Ht Ot Q H1 H2 S.
  destruct (run_at 64 RTI IMP 6 t ltac:(row_tac) eq_refl ltac:(discriminate) Ht Ot) as (t1 & Et & Vt & _). exists t1. split; [exact Et|].
  rewrite Vt. clear Vt Et. unfold run_irq. rewrite run_rti.
  pose proof (interrupt_rti b c (view t) H1 H2 S (w16 (PC (view t) + ilen IMP))) as R. cbv zeta in R. revert R.
  generalize (perform RTI 0 (view t) (wPC (w16 (PC (view t) + ilen IMP)) (view t))). intros u R. clear S.
  assert (P : poll RTI (is_irq t) u = false).
  { unfold poll. rewrite (flags_fI u c (proj1 R)). destruct Q as [-> | ->]; [rewrite andb_false_r; reflexivity|apply andb_false_r]. }
  rewrite P. exact R.
Qed.

Lemma brk_rti s t : cpu_ok s -> cpu_ok t -> at_opcode 0 s -> at_opcode 64 t -> quiet s t ->
  forall s1, execute s = Ok s1 -> same_stack 3 (view s1) (view t) ->
  exists t1, execute t = Ok t1 /\ flags_of (view t1) = flags_of (view s) /\ PC (view t1) = m_pc s + 2 /\ m_s t1 = m_s s.
Proof.
  intros Hs Ht Os Ot Q s1 E S.
  destruct (run_at 0 BRK IMP 7 s ltac:(row_tac) eq_refl ltac:(discriminate) Hs Os) as (s1' & E' & V & _). rewrite E in E'. injection E' as <-.
  rewrite V in S. unfold run_irq, poll, run, perform, polls in S. cbn [andb] in S. destruct Os as [P _].
  set (c := wPC (w16 (PC (wPC (w16 (PC (view s) + ilen IMP)) (view s)) + 1)) (wPC (w16 (PC (view s) + ilen IMP)) (view s))) in S.
  destruct (rti_resumes true c t Ht Ot) with (4 := S) as (t1 & Et & F & PCt & SPt).
  - exact Q.
  - exact (sp_view s Hs).
  - unfold c. cbn [PC wPC]. unfold w16. lia.
  - exists t1. split; [exact Et|]. split; [exact F|]. split; [|exact SPt]. rewrite PCt. unfold c. cbn [PC wPC]. unfold view, w16. cbn [PC ilen].
    clear - P. rewrite !Z.mod_small by lia. lia.
Qed.

(* a timer interrupt *)
Lemma irq_rti s t : cpu_ok s -> cpu_ok t -> is_irq s = true -> fI (view s) = false -> 0 <= m_pc s < 65536 -> at_opcode 64 t -> is_irq t = false ->
  exists s1, check_irq s = Ok s1 /\ fI (view s1) = true /\ m_cycle s1 = m_cycle s + 7 /\
    PC (view s1) = ld (m_memory s1) 65534 + 256 * ld (m_memory s1) 65535 /\
    (same_stack 3 (view s1) (view t) ->
     exists t1, execute t = Ok t1 /\ flags_of (view t1) = flags_of (view s) /\ PC (view t1) = m_pc s /\ m_s t1 = m_s s).
Proof.
  intros Hs Ht I FI P Ot Q.
  destruct (check_irq_view CLI s s eq_refl Hs eq_refl) as (s1 & E & V & R & C). unfold poll in V, C. rewrite I, FI in V, C. cbn [polls andb negb] in V, C.
  exists s1. split; [exact E|]. split; [rewrite V; reflexivity|]. split; [exact C|]. split.
  - change (m_memory s1) with (M (view s1)). rewrite V. reflexivity.
  - intros S. rewrite V in S. edestruct (rti_resumes false (view s) t) as (t1 & Et & F & PCt & SPt); [exact Ht|exact Ot|now left|exact (sp_view s Hs)|apply pc_view|exact S|].
    exists t1. split; [exact Et|]. split; [exact F|]. split; [|exact SPt]. rewrite PCt. unfold view. cbn [PC]. now apply Z.mod_small.
Qed.

(* ---- every instruction ---- *)
Lemma ends_with_wpg {T} allowed (o : outcome T) (P : T -> Prop) : wpg (fun r => In r allowed) False o P -> ends_with allowed o.
Proof. destruct o; cbn; auto. Qed.

(* the chip registers are sane and the clock is inside a frame *)
Record hardware_ok (s : asap) : Prop := mkHardwareOk {
  ho_base : pokey_ok (pp_basePokey (m_pokeys s));
  ho_extra : pokey_ok (pp_extraPokey (m_pokeys s));
  ho_events : 0 <= m_nextEventCycle s <= m_nextScanlineCycle s;
  ho_cycle : 0 <= m_cycle s <= 99000
}.
(* the chips' output can be mixed and stored until cycle [limit] *)
Definition output_ok (limit : Z) (s : asap) : Prop :=
  let pp := m_pokeys s in
  mixed (pp_basePokey pp) /\ mixed (pp_extraPokey pp) /\
  room pp limit (len (pk_deltaBuffer (pp_basePokey pp))) /\ room pp limit (len (pk_deltaBuffer (pp_extraPokey pp))).

Definition any_size : Z * Z -> Z -> Z -> Prop := fun _ _ _ => True.

Lemma hw_any (B : ub_reason -> Prop) limit s : B UbRead -> B UbWrite -> hardware_ok s -> hw_ok B any_size limit s.
Proof.
  intros HR HW [H1 H2 H3 H4]. constructor; [| |exact H3]; constructor; try assumption; try (left; assumption); exact I.
Qed.
Lemma hw_room (B : ub_reason -> Prop) limit s : B UbRead -> hardware_ok s ->
  room (m_pokeys s) limit (len (pk_deltaBuffer (pp_basePokey (m_pokeys s)))) ->
  room (m_pokeys s) limit (len (pk_deltaBuffer (pp_extraPokey (m_pokeys s)))) -> hw_ok B any_size limit s.
Proof.
  intros HR [H1 H2 H3 H4] R1 R2. constructor; [| |exact H3]; constructor; try assumption; try (left; assumption); try (right; assumption); exact I.
Qed.
Lemma hw_output (B : ub_reason -> Prop) limit s : hardware_ok s -> output_ok limit s -> hw_ok B any_size limit s.
Proof.
  intros [H1 H2 H3 H4] (M1 & M2 & R1 & R2). constructor; [| |exact H3]; constructor; try assumption; try (right; assumption); exact I.
Qed.

Lemma execute_ranges s s' : cpu_ok s -> hardware_ok s -> execute s = Ok s' ->
  cpu_ok s' /\ pokey_ok (pp_basePokey (m_pokeys s')) /\ pokey_ok (pp_extraPokey (m_pokeys s')).
Proof.
  intros C H E. pose proof (ho_cycle _ H) as HC.
  pose proof (execute_ok (fun _ => True) True I any_size 100000 s C (hw_any _ 100000 s I I H)
    ltac:(lia) ltac:(lia) ltac:(lia) (or_introl I)) as W.
  rewrite E in W. cbn [wpg] in W. destruct W as ((K1 & [K2 K3 _] & _) & _). split; [exact K1|]. split; [apply K2|apply K3].
Qed.

Lemma execute_any s : cpu_ok s -> hardware_ok s ->
  room (m_pokeys s) (m_cycle s + 9) (len (pk_deltaBuffer (pp_basePokey (m_pokeys s)))) ->
  room (m_pokeys s) (m_cycle s + 9) (len (pk_deltaBuffer (pp_extraPokey (m_pokeys s)))) ->
  ends_with [UbRead; UbOverflow] (execute s).
Proof.
  intros C H R1 R2. pose proof (ho_cycle _ H) as HC. eapply ends_with_wpg.
  apply (execute_ok (fun r => In r [UbRead; UbOverflow]) False ltac:(cbn; auto) any_size (m_cycle s + 9) s C); try lia.
  - apply hw_room; cbn; auto.
  - left. cbn. auto.
Qed.

Lemma execute_inside s : cpu_ok s -> hardware_ok s -> output_ok (m_cycle s + 9) s -> 0 <= m_pc s <= 65533 -> ends_with [UbOverflow] (execute s).
Proof.
  intros C H R P. pose proof (ho_cycle _ H) as HC. eapply ends_with_wpg.
  apply (execute_ok (fun r => In r [UbOverflow]) False ltac:(cbn; auto) any_size (m_cycle s + 9) s C); try lia.
  - now apply hw_output.
  - right. lia.
Qed.

(* ---- addressing ---- *)
Lemma load_address op am n page s : In (op, LDA, am, n, page) documented -> cpu_ok s -> runnable (op, LDA, am, n, page) s ->
  exists s', execute s = Ok s' /\ m_a s' = ld (m_memory s) (ea am (view s)) /\ m_memory s' = m_memory s.
Proof.
  intros I C R. destruct (execute_documented _ s I C R) as (s' & E & V & _). exists s'. split; [exact E|].
  change (m_a s') with (A (view s')). change (m_memory s') with (M (view s')). rewrite V. split; reflexivity.
Qed.
Lemma store_address op am n page s : In (op, STA, am, n, page) documented -> cpu_ok s -> runnable (op, STA, am, n, page) s ->
  exists s', execute s = Ok s' /\ m_memory s' = st (m_memory s) (ea am (view s)) (m_a s).
Proof.
  intros I C R. destruct (execute_documented _ s I C R) as (s' & E & V & _). exists s'. split; [exact E|].
  change (m_memory s') with (M (view s')). rewrite V. reflexivity.
Qed.
Lemma jump_indirect s : cpu_ok s -> runnable (0x6C, JMPI, ABS, 5, false) s ->
  exists s', execute s = Ok s' /\ PC (view s') = ld (m_memory s) (arg16 (view s)) + 256 * ld (m_memory s) (arg16 (view s) + 1).
Proof.
  intros C R. destruct (execute_documented (0x6C, JMPI, ABS, 5, false) s ltac:(row_tac) C R) as (s' & E & V & _). exists s'. split; [exact E|].
  destruct R as (_ & _ & _ & _ & R). specialize (R eq_refl). rewrite V. cbv [run_irq poll polls run perform andb ea]. cbn [PC wPC M]. unfold mw.
  change (M (wPC _ (view s))) with (m_memory s). unfold w8.
  assert (B : 0 <= arg16 (view s)).
  { unfold arg16, mw. pose proof (ok_mem _ C (w16 (PC (view s) + 1))) as B1. pose proof (ok_mem _ C (w16 (PC (view s) + 2))) as B2. unfold byte in *.
    change (M (view s)) with (m_memory s). lia. }
  revert R B. generalize (arg16 (view s)). intros v R B. replace (v - v mod 256 + (v + 1) mod 256) with (v + 1) by lia. reflexivity.
Qed.
