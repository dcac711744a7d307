(* Running short pieces of 6502 code: one rule for each instruction used by the routines that ASAPWriter adds *)
From Verif Require Import Base BaseFacts Loop MemModel InfoModel InfoProofs PokeyModel MachineModel CpuSpec CpuArith CpuProofs PokeyProofs MachineProofs FrameProofs CpuFacts LoadProofs CallSpec CallProofs.

(* ---- instructions with a memory operand ---- *)
Definition moves (m : mnemonic) : bool :=
  match m with LDA | LDX | LDY | STA | STX | STY | INC | DEC | ASL | LSR => true | _ => false end.

Lemma op_keeps mn o addr s s' : moves mn = true -> op_of mn = Some o -> cpu_ok s -> 0 <= addr < 65536 -> hardware addr = false ->
  run_operation o addr s = Ok s' -> m_pc s' = m_pc s /\ cpu_ok s'.
Proof.
  intros Hm Ho H Ha Hh E. pose proof (ok_mem _ H addr) as Bv. change (0 <= ld (m_memory s) addr < 256) with (byte (ld (m_memory s) addr)) in Bv.
  assert (Bm : forall v, byte (v mod 256)) by (unfold byte; lia).
  pose proof H as [Oa Ox Oy Os On Oc Ov Om]. revert E.
  destruct mn; try discriminate Hm; cbn [op_of] in Ho; try discriminate Ho; injection Ho as <-; cbn [run_operation];
    unfold arithmetic_shift_left, rotate_left, logical_shift_right, rotate_right, decrement, increment;
    rewrite ?cpu_peek_ok, ?peek_rmw_ok by assumption; cbn [bind]; rewrite ?cpu_poke_ok by assumption; cbn [bind];
    set (v := ld (m_memory s) addr) in *; intros E; injection E as <-; (split; [reflexivity|]);
    arith; constructor; proj; try assumption; try (unfold byte in *; lia);
    apply byte_mem_st; try assumption; apply u8_is_byte.
Qed.

Lemma go_moves op m am n page s : In (op, m, am, n, page) documented -> moves m = true -> steady s -> m_pc s + ilen am < 65536 ->
  ld (m_memory s) (m_pc s) = op -> hardware (ea am (view s)) = false -> goes s (run (op, m, am, n, page) (view s)).
Proof.
  intros Hr Hm St L O Hh. pose proof (steady_range s St) as R. destruct St as [H Epc].
  assert (Ro : row_ok (op, m, am, n, page)) by (eapply Forall_forall; [exact rows_ok|exact Hr]).
  destruct (execute_documented _ s Hr H) as (s' & E & V & _ & Rs).
  { split; [lia|]. split; [lia|]. split; [exact O|]. split; [auto|]. intros ->. discriminate Hm. }
  destruct (op_of m) as [o|] eqn:Eo; [|destruct m; discriminate].
  assert (NP : poll m (is_irq s) (run (op, m, am, n, page) (view s)) = false) by (destruct m; try discriminate Hm; reflexivity).
  exists s'. split; [exact E|]. unfold run_irq in V. rewrite NP in V. split; [exact V|].
  unfold row_ok in Ro. rewrite Eo in Ro. destruct Ro as (_ & Hn & F1 & F2 & F3 & F4).
  rewrite (dispatch op n s (conj H Epc) O Hn), F1, (mode_ok am page n s H ltac:(lia) ltac:(lia) F3 F4), F2 in E. cbn [bind] in E.
  destruct (op_keeps m o _ _ s' Hm Eo (cpu_ok_addressed _ _ _ _ H) (ea_range am s H) Hh E) as [P K].
  split; [exact K|]. split; [|exact Rs].
  assert (Q : PC (run (op, m, am, n, page) (view s)) = w16 (PC (view s) + ilen am)) by (destruct m; try discriminate Hm; reflexivity).
  rewrite Q, P, <- Epc. unfold addressed. proj. unfold w16. rewrite Z.mod_small; [reflexivity|]. destruct am; cbn [ilen] in *; lia.
Qed.

(* ---- branches, jumps and the accumulator ---- *)
Lemma go_branch op m n s : In (op, m, REL, n, false) documented -> branch_of m <> None -> steady s -> m_pc s + 2 < 65536 ->
  ld (m_memory s) (m_pc s) = op -> 0 <= m_pc s + 2 + signed (ld (m_memory s) (m_pc s + 1)) < 65536 -> goes s (run (op, m, REL, n, false) (view s)).
Proof.
  intros Hr Hb St L O T. pose proof (steady_range s St) as R. destruct St as [H Epc].
  assert (Ro : row_ok (op, m, REL, n, false)) by (eapply Forall_forall; [exact rows_ok|exact Hr]).
  destruct (execute_documented _ s Hr H) as (s' & E & V & _ & Rs).
  { split; [lia|]. split; [cbn [ilen]; lia|]. split; [exact O|]. split; [destruct m; try discriminate; contradiction Hb; reflexivity|]. intros ->. contradiction Hb. reflexivity. }
  assert (NP : poll m (is_irq s) (run (op, m, REL, n, false) (view s)) = false) by (destruct m; try reflexivity; contradiction Hb; reflexivity).
  exists s'. split; [exact E|]. unfold run_irq in V. rewrite NP in V. split; [exact V|].
  assert (Eo : op_of m = None) by (destruct m; try reflexivity; contradiction Hb; reflexivity).
  unfold row_ok in Ro. rewrite Eo in Ro. destruct (branch_of m) as [md|] eqn:Eb; [|contradiction Hb; reflexivity]. destruct Ro as (_ & Hn & _ & F1 & F2 & _).
  rewrite (dispatch op n s (conj H Epc) O Hn), F1, F2 in E.
  assert (G : exists b, run_mode md (fetched n s) = branch_if b (fetched n s)).
  { destruct m; cbn [branch_of] in Eb; try discriminate Eb; injection Eb as <-; cbn [run_mode]; eexists; reflexivity. }
  destruct G as [b G]. rewrite G in E. unfold branch_if in E.
  assert (Q : m_pc s' = PC (view s')).
  { assert (W : 0 <= m_pc s' < 65536).
    { destruct b; cbn [bind done] in E.
      - unfold run_operation, take_branch in E. rewrite mem_rd_ok in E by (proj; lia). cbn [bind] in E. injection E as <-. proj.
        rewrite signed_xor by apply (ld_byte s _ H). proj. replace (signed (ld (m_memory s) (m_pc s + 1)) + (m_pc s + 1 + 1)) with (m_pc s + 2 + signed (ld (m_memory s) (m_pc s + 1))) by lia. exact T.
      - injection E as <-. proj. lia. }
    unfold view. cbn [PC]. now rewrite Z.mod_small. }
  split; [|split; [rewrite <- V; exact Q|exact Rs]].
  destruct b; cbn [bind done] in E.
  - unfold run_operation, take_branch in E. rewrite mem_rd_ok in E by (proj; lia). cbn [bind] in E. injection E as <-.
    destruct H. constructor; assumption.
  - injection E as <-. destruct H. constructor; assumption.
Qed.

Lemma go_jmp s : steady s -> m_pc s < 65533 -> ld (m_memory s) (m_pc s) = 76 ->
  goes s (wPC (ld (m_memory s) (m_pc s + 1) + 256 * ld (m_memory s) (m_pc s + 2)) (view s)).
Proof.
  intros H L O. unfold goes. pose proof (steady_range s H) as R. rewrite (dispatch 76 3 s H O eq_refl). cbn [first_switch run_mode].
  rewrite fetch_ok by (proj; lia). cbn [bind]. rewrite mem_rd_ok by (proj; lia). cbn [bind done]. proj. rewrite shl8.
  pose proof (ld_byte s (m_pc s + 1) (proj1 H)) as B1. pose proof (ld_byte s (m_pc s + 2) (proj1 H)) as B2.
  replace (m_pc s + 1 + 1) with (m_pc s + 2) by lia.
  eexists. split; [reflexivity|]. split; [|split; [|split; [unfold wPC; proj; lia|reflexivity]]].
  - rewrite view_pc. rewrite Z.mod_small by lia. unfold view, wPC. proj. f_equal. lia.
  - destruct H as [[] _]. constructor; assumption.
Qed.

Lemma go_lsr s : steady s -> m_pc s < 65535 -> ld (m_memory s) (m_pc s) = 74 ->
  goes s (run (74, LSRA, IMP, 2, false) (view s)).
Proof.
  intros St L O. pose proof (steady_range s St) as R. destruct St as [H Epc].
  destruct (execute_documented (74, LSRA, IMP, 2, false) s) as (s' & E & V & _ & Rs).
  { unfold documented. apply in_or_app. right. vm_compute. tauto. }
  { exact H. }
  { split; [lia|]. split; [cbn [ilen]; lia|]. split; [exact O|]. split; discriminate. }
  exists s'. split; [exact E|]. unfold run_irq in V. cbn [poll polls andb] in V. split; [exact V|].
  rewrite (dispatch 74 2 s (conj H Epc) O eq_refl) in E. cbn [first_switch run_mode bind done] in E. injection E as <-.
  split; [|split; [|exact Rs]].
  - pose proof (ok_a _ H) as B. destruct H. constructor; proj; arith; try assumption; unfold byte in *; lia.
  - change (PC (run (74, LSRA, IMP, 2, false) (view s))) with (w16 (PC (view s) + 1)). rewrite <- Epc. proj. unfold w16. rewrite Z.mod_small by lia. reflexivity.
Qed.

(* ---- a piece of code, followed by its registers, two flags and memory ---- *)
Definition reach (s : asap) (a x y sp pc : Z) (m : mem) (z k : bool) : Prop :=
  exists n c, runs n s c /\ A c = a /\ X c = x /\ Y c = y /\ SP c = sp /\ PC c = pc /\ M c = m /\ fZ c = z /\ fC c = k.

Lemma reach_zero s : steady s -> reach s (m_a s) (m_x s) (m_y s) (m_s s) (m_pc s) (m_memory s) (fZ (view s)) (fC (view s)).
Proof. intros H. exists 0%nat, (view s). split; [now apply runs_zero|]. destruct H as [_ E]. repeat split. now symmetry. Qed.

(* what is known of a state after some instructions *)
Lemma reach_byte s a x y sp pc m z k : reach s a x y sp pc m z k -> byte a /\ byte x /\ byte y /\ byte sp /\ 0 <= pc < 65536 /\ byte_mem m.
Proof.
  intros (n & c & (s' & E & V & H & P & _) & Ea & Ex & Ey & Es & Ep & Em & _). subst c. pose proof H as [Oa Ox Oy Os On Oc Ov Om].
  cbn [A X Y SP M view] in *. subst a x y sp m. repeat (split; [assumption|]). split; [|assumption]. subst pc. apply pc_view.
Qed.

(* one more instruction *)
Lemma reach_next s a x y sp pc m z k a' x' y' sp' pc' m' z' k' : reach s a x y sp pc m z k ->
  (forall t, steady t -> m_a t = a -> m_x t = x -> m_y t = y -> m_s t = sp -> m_pc t = pc -> m_memory t = m -> fZ (view t) = z -> fC (view t) = k ->
     exists d, goes t d /\ A d = a' /\ X d = x' /\ Y d = y' /\ SP d = sp' /\ PC d = pc' /\ M d = m' /\ fZ d = z' /\ fC d = k') ->
  reach s a' x' y' sp' pc' m' z' k'.
Proof.
  intros (n & c & R & Ea & Ex & Ey & Es & Ep & Em & Ez & Ek) G.
  destruct R as (s1 & E & V & H & P & Rs). assert (St : steady s1) by (split; [exact H|now rewrite V]).
  subst c. destruct (G s1 St Ea Ex Ey Es) as (d & (s2 & E2 & V2 & H2 & P2 & R2) & Q); [now rewrite P|exact Em|exact Ez|exact Ek|].
  exists (n + 1)%nat, d. split; [|exact Q]. exists s2. rewrite (executes_add n 1 _ _ E). cbn [executes]. rewrite E2. cbn [bind]. split; [reflexivity|].
  split; [exact V2|]. split; [exact H2|]. split; [exact P2|]. now rewrite R2.
Qed.

Lemma plain_page a : 0 <= a < 53248 -> hardware a = false.
Proof. intros H. unfold hardware. cbn [existsb]. rewrite !orb_false_iff. repeat split; try reflexivity; apply Z.eqb_neq; lia. Qed.


Lemma reach_state s a x y sp pc m z k : reach s a x y sp pc m z k ->
  exists n s', executes n s = Ok s' /\ cpu_ok s' /\ m_a s' = a /\ m_x s' = x /\ m_y s' = y /\ m_s s' = sp /\ m_pc s' = pc /\ m_memory s' = m /\ rest s' = rest s.
Proof.
  intros (n & c & (s' & E & V & H & P & R) & Ea & Ex & Ey & Es & Ep & Em & _). exists n, s'. subst c. rewrite P.
  repeat (split; [first [assumption|reflexivity]|]). assumption.
Qed.

(* ---- one rule for each instruction ---- *)
Section rules.
Variables (s : asap) (a x y sp pc : Z) (m : mem) (z k : bool).
Hypothesis (H : reach s a x y sp pc m z k) (low : 0 <= pc < 53240).

Lemma pc_of t : m_pc t = pc -> PC (view t) = pc.
Proof. intros E. unfold view. cbn [PC]. rewrite E, Z.mod_small; lia. Qed.

Ltac next r t := eapply reach_next; [exact H|]; intros t St Ta Tx Ty Ts Tp Tm Tz Tk; pose proof (pc_of t Tp) as P; exists (r (view t)).
Ltac fields t P Tm := unfold run; cbn [ea ilen perform taken]; unfold mem_step, mem_shift, acc_shift, arg8, arg16, mw; cbn [wA wX wY wNZ wZ wN wC wPC wM wSP push_byte push_word A X Y SP PC fZ fC M];
  change (M (view t)) with (m_memory t); rewrite ?P, ?Tm, ?w16_id by lia.
Ltac moving Tm Tp P := apply go_moves; [solve [row_tac]|reflexivity|assumption|rewrite Tp; cbn [ilen]; lia|now rewrite Tm, Tp|].

Ltac immediate op mn := intros O V E; subst; let t := fresh "t" in next (run (op, mn, IMM, 2, false)) t;
  match goal with P : PC (view ?t) = _, Tm : m_memory ?t = _, Tp : m_pc ?t = _ |- _ =>
  split; [moving Tm Tp P; cbn [ea]; rewrite P, w16_id by lia; apply plain_page; lia|fields t P Tm; repeat split; assumption] end.

Lemma r_lda_imm v q : ld m pc = 169 -> ld m (pc + 1) = v -> q = pc + 2 -> reach s v x y sp q m (v =? 0) k.
Proof. immediate 169 LDA. Qed.
Lemma r_ldx_imm v q : ld m pc = 162 -> ld m (pc + 1) = v -> q = pc + 2 -> reach s a v y sp q m (v =? 0) k.
Proof. immediate 162 LDX. Qed.
Lemma r_ldy_imm v q : ld m pc = 160 -> ld m (pc + 1) = v -> q = pc + 2 -> reach s a x v sp q m (v =? 0) k.
Proof. immediate 160 LDY. Qed.

(* the table lies below the hardware registers *)
Lemma r_ldx_absy w v q : ld m pc = 190 -> ld m (pc + 1) = w mod 256 -> ld m (pc + 2) = w / 256 -> 0 <= w + y < 53248 -> ld m (w + y) = v -> q = pc + 3 -> reach s a v y sp q m (v =? 0) k.
Proof.
  intros O E1 E2 W V E. subst q v. next (run (190, LDX, ABSY, 4, true)) t. 
  assert (Ee : ea ABSY (view t) = w + y).
  { cbn [ea]. unfold arg16, mw. change (M (view t)) with (m_memory t). change (Y (view t)) with (m_y t). rewrite P, Tm, Ty, (w16_id (pc + 1)), (w16_id (pc + 2)), E1, E2 by lia.
    replace (w mod 256 + 256 * (w / 256) + y) with (w + y) by (pose proof (Z.div_mod w 256); lia). apply w16_id. lia. }
  split; [moving Tm Tp P; rewrite Ee; apply plain_page; lia|].
  unfold run. rewrite Ee. cbn [ilen perform]. fields t P Tm. repeat split; assumption.
Qed.
Lemma r_ldy_absx w v q : ld m pc = 188 -> ld m (pc + 1) = w mod 256 -> ld m (pc + 2) = w / 256 -> 0 <= w + x < 53248 -> ld m (w + x) = v -> q = pc + 3 -> reach s a x v sp q m (v =? 0) k.
Proof.
  intros O E1 E2 W V E. subst q v. next (run (188, LDY, ABSX, 4, true)) t. 
  assert (Ee : ea ABSX (view t) = w + x).
  { cbn [ea]. unfold arg16, mw. change (M (view t)) with (m_memory t). change (X (view t)) with (m_x t). rewrite P, Tm, Tx, (w16_id (pc + 1)), (w16_id (pc + 2)), E1, E2 by lia.
    replace (w mod 256 + 256 * (w / 256) + x) with (w + x) by (pose proof (Z.div_mod w 256); lia). apply w16_id. lia. }
  split; [moving Tm Tp P; rewrite Ee; apply plain_page; lia|].
  unfold run. rewrite Ee. cbn [ilen perform]. fields t P Tm. repeat split; assumption.
Qed.
Lemma r_lda_absy w v q : ld m pc = 185 -> ld m (pc + 1) = w mod 256 -> ld m (pc + 2) = w / 256 -> 0 <= w + y < 53248 -> ld m (w + y) = v -> q = pc + 3 -> reach s v x y sp q m (v =? 0) k.
Proof.
  intros O E1 E2 W V E. subst q v. next (run (185, LDA, ABSY, 4, true)) t. 
  assert (Ee : ea ABSY (view t) = w + y).
  { cbn [ea]. unfold arg16, mw. change (M (view t)) with (m_memory t). change (Y (view t)) with (m_y t). rewrite P, Tm, Ty, (w16_id (pc + 1)), (w16_id (pc + 2)), E1, E2 by lia.
    replace (w mod 256 + 256 * (w / 256) + y) with (w + y) by (pose proof (Z.div_mod w 256); lia). apply w16_id. lia. }
  split; [moving Tm Tp P; rewrite Ee; apply plain_page; lia|].
  unfold run. rewrite Ee. cbn [ilen perform]. fields t P Tm. repeat split; assumption.
Qed.

(* zero page, address 0 *)
Lemma zp_of t : ld m (pc + 1) = 0 -> PC (view t) = pc -> m_memory t = m -> ea ZP (view t) = 0.
Proof. intros O P T. cbn [ea]. unfold arg8. change (M (view t)) with (m_memory t). rewrite P, T, w16_id by lia. exact O. Qed.

Ltac page_zero op mn n := intros O E0 E; subst; let t := fresh "t" in next (run (op, mn, ZP, n, false)) t;
  match goal with P : PC (view ?t) = _, Tm : m_memory ?t = _, Tp : m_pc ?t = _, E0 : ld _ _ = 0 |- _ =>
  pose proof (zp_of t E0 P Tm) as Ee;
  split; [moving Tm Tp P; rewrite Ee; reflexivity|unfold run; rewrite Ee; cbn [ilen perform asl]; fields t P Tm; repeat split; assumption] end.

Lemma r_lda_zp q : ld m pc = 165 -> ld m (pc + 1) = 0 -> q = pc + 2 -> reach s (ld m 0) x y sp q m (ld m 0 =? 0) k.
Proof. page_zero 165 LDA 3. Qed.
Lemma r_dec_zp q : ld m pc = 198 -> ld m (pc + 1) = 0 -> q = pc + 2 -> reach s a x y sp q (st m 0 ((ld m 0 - 1) mod 256)) ((ld m 0 - 1) mod 256 =? 0) k.
Proof. page_zero 198 DEC 5. Qed.
Lemma r_inc_zp q : ld m pc = 230 -> ld m (pc + 1) = 0 -> q = pc + 2 -> reach s a x y sp q (st m 0 ((ld m 0 + 1) mod 256)) ((ld m 0 + 1) mod 256 =? 0) k.
Proof. page_zero 230 INC 5. Qed.
Lemma r_asl_zp q : ld m pc = 6 -> ld m (pc + 1) = 0 -> q = pc + 2 -> reach s a x y sp q (st m 0 ((2 * ld m 0) mod 256)) ((2 * ld m 0) mod 256 =? 0) (128 <=? ld m 0).
Proof. page_zero 6 ASL 5. Qed.
Lemma r_sty_zp q : ld m pc = 132 -> ld m (pc + 1) = 0 -> q = pc + 2 -> reach s a x y sp q (st m 0 y) z k.
Proof.
  intros O E0 E; subst q; next (run (132, STY, ZP, 3, false)) t. pose proof (zp_of t E0 P Tm) as Ee.
  split; [moving Tm Tp P; rewrite Ee; reflexivity|]. unfold run; rewrite Ee; cbn [ilen perform]. fields t P Tm. change (Y (view t)) with (m_y t). rewrite Ty. repeat split; assumption.
Qed.

Lemma r_tax q : ld m pc = 170 -> q = pc + 1 -> reach s a a y sp q m (a =? 0) k.
Proof.
  intros O E. subst q. eapply reach_next; [exact H|]; intros t St Ta Tx Ty Ts Tp Tm Tz Tk. eexists. split; [apply go_tax; [exact St|lia|now rewrite Tm, Tp]|].
  cbn [wA wX wY wNZ wZ wN wC wPC wM wSP push_byte push_word A X Y SP PC fZ fC M]. rewrite Tp. change (A (view t)) with (m_a t). rewrite Ta. repeat split; assumption.
Qed.
Lemma r_tay q : ld m pc = 168 -> q = pc + 1 -> reach s a x a sp q m (a =? 0) k.
Proof.
  intros O E. subst q. eapply reach_next; [exact H|]; intros t St Ta Tx Ty Ts Tp Tm Tz Tk. eexists. split; [apply go_tay; [exact St|lia|now rewrite Tm, Tp]|].
  cbn [wA wX wY wNZ wZ wN wC wPC wM wSP push_byte push_word A X Y SP PC fZ fC M]. rewrite Tp. change (A (view t)) with (m_a t). rewrite Ta. repeat split; assumption.
Qed.
Lemma r_lsr q : ld m pc = 74 -> q = pc + 1 -> reach s (a / 2) x y sp q m (a / 2 =? 0) (a mod 2 =? 1).
Proof.
  intros O E. subst q. next (run (74, LSRA, IMP, 2, false)) t. split; [apply go_lsr; [exact St|lia|now rewrite Tm, Tp]|].
  unfold run. cbn [ilen perform ea]. fields t P Tm. unfold lsr. change (A (view t)) with (m_a t). rewrite Ta. cbn [A X Y SP PC fZ fC M]. repeat split; assumption.
Qed.
Lemma r_pha q : ld m pc = 72 -> q = pc + 1 -> reach s a x y ((sp - 1) mod 256) q (st m (256 + sp) a) z k.
Proof.
  intros O E. subst q. eapply reach_next; [exact H|]; intros t St Ta Tx Ty Ts Tp Tm Tz Tk. eexists. split; [apply go_pha; [exact St|lia|now rewrite Tm, Tp]|].
  cbn [wA wX wY wNZ wZ wN wC wPC wM wSP push_byte push_word A X Y SP PC fZ fC M]. rewrite Tp. change (SP (view t)) with (m_s t). change (M (view t)) with (m_memory t). rewrite Ts, Tm, Ta. repeat split; assumption.
Qed.
Lemma r_pla v q : ld m pc = 104 -> ld m (256 + (sp + 1) mod 256) = v -> q = pc + 1 -> reach s v x y ((sp + 1) mod 256) q m (v =? 0) k.
Proof.
  intros O V E. subst q. eapply reach_next; [exact H|]; intros t St Ta Tx Ty Ts Tp Tm Tz Tk.
  assert (Q : pull_byte (wPC (m_pc t + 1) (view t)) = (v, wSP ((sp + 1) mod 256) (wPC (pc + 1) (view t)))).
  { unfold pull_byte. change (SP (wPC (m_pc t + 1) (view t))) with (m_s t). change (M (wPC (m_pc t + 1) (view t))) with (m_memory t). unfold w8. now rewrite Ts, Tm, Tp, V. }
  eexists. split; [eapply go_pla; [exact St|lia|now rewrite Tm, Tp|exact Q]|].
  cbn [wA wX wY wNZ wZ wN wC wPC wM wSP push_byte push_word A X Y SP PC fZ fC M]. repeat (split; [first [assumption|reflexivity]|]). assumption.
Qed.
Lemma r_jmp w : ld m pc = 76 -> ld m (pc + 1) = w mod 256 -> ld m (pc + 2) = w / 256 -> reach s a x y sp w m z k.
Proof.
  intros O E1 E2. eapply reach_next; [exact H|]; intros t St Ta Tx Ty Ts Tp Tm Tz Tk. eexists. split; [apply go_jmp; [exact St|lia|now rewrite Tm, Tp]|].
  cbn [wA wX wY wNZ wZ wN wC wPC wM wSP push_byte push_word A X Y SP PC fZ fC M]. rewrite Tm, Tp, E1, E2. repeat split; try assumption. pose proof (Z.div_mod w 256). lia.
Qed.
Definition jsr_mem (r sp : Z) (m : mem) : mem := st (st m (256 + sp) (w8 (r / 256))) (256 + w8 (sp - 1)) (w8 r).
Lemma r_jsr w : 512 <= pc -> ld m pc = 32 -> ld m (pc + 1) = w mod 256 -> ld m (pc + 2) = w / 256 ->
  reach s a x y (w8 (w8 (sp - 1) - 1)) w (jsr_mem (pc + 2) sp m) z k.
Proof.
  intros L O E1 E2. eapply reach_next; [exact H|]; intros t St Ta Tx Ty Ts Tp Tm Tz Tk. eexists. split; [apply go_jsr; [exact St|lia|now rewrite Tm, Tp|lia]|].
  unfold jsr_mem; cbn [wA wX wY wNZ wZ wN wC wPC wM wSP push_byte push_word A X Y SP PC fZ fC M]. change (SP (view t)) with (m_s t). change (M (view t)) with (m_memory t). rewrite Tm, Tp, Ts, E1, E2.
  repeat split; try assumption. pose proof (Z.div_mod w 256). lia.
Qed.

Lemma r_branch op mn (b : bool) w : In (op, mn, REL, 2, false) documented -> branch_of mn <> None ->
  (forall c, fZ c = z -> fC c = k -> taken mn c = b) ->
  ld m pc = op -> w = (if b then pc + 2 + signed (ld m (pc + 1)) else pc + 2) -> 0 <= pc + 2 + signed (ld m (pc + 1)) < 65536 ->
  reach s a x y sp w m z k.
Proof.
  intros I B T O E R. subst w. next (run (op, mn, REL, 2, false)) t. split; [apply go_branch; [exact I|exact B|exact St|lia|now rewrite Tm, Tp|now rewrite Tm, Tp]|].
  unfold run. cbn [ea ilen]. 
  assert (Q : perform mn 0 (view t) (wPC (w16 (PC (view t) + 2)) (view t)) =
    if taken mn (wPC (w16 (PC (view t) + 2)) (view t)) then wPC (w16 (PC (wPC (w16 (PC (view t) + 2)) (view t)) + signed (arg8 (view t)))) (wPC (w16 (PC (view t) + 2)) (view t)) else wPC (w16 (PC (view t) + 2)) (view t)).
  { destruct mn; try (contradiction B; reflexivity); reflexivity. }
  rewrite Q, T by assumption. unfold arg8. change (M (view t)) with (m_memory t). rewrite P, Tm. unfold wPC. cbn [PC]. rewrite !(w16_id (pc + 2)), !(w16_id (pc + 1)) by lia. rewrite (w16_id _ R).
  destruct b; cbn [A X Y SP PC fZ fC M]; repeat split; assumption.
Qed.
End rules.
