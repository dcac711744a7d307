(* One rule for each instruction of the decompressor *)
From Verif Require Import Base BaseFacts MemModel CpuSpec FlashSpec UnpackSpec.

Section Step.
Variable s0 : cpu.
(* a state reached from s0, as far as the decompressor depends on it *)
Definition At (a x y sp pc : Z) (z k : bool) (m : mem) : Prop :=
  exists c, gets s0 c /\ A c = a /\ X c = x /\ Y c = y /\ SP c = sp /\ PC c = pc /\ fD c = false /\ fZ c = z /\ fC c = k /\ M c = m.

Ltac row_in := unfold documented, alu, shift, modify; repeat (apply in_or_app; first [left; solve [cbn; tauto] | right]); solve [cbn; tauto].
Lemma w16_small v : 0 <= v < 65536 -> w16 v = v. Proof. intros H. unfold w16. now apply Z.mod_small. Qed.
Ltac pc_tac := cbn [A X Y SP PC fN fV fD fI fZ fC M]; rewrite ?w16_small by lia; try reflexivity; try lia.
Ltac inst r := intros (c & G & Ea & Ex & Ey & Es & Ep & Ed & Ez & Ek & Em) Hpc Hop; intros;
  exists (run r c); split; [apply gets_on; [exact G|row_in|rewrite Em, Ep; exact Hop]|];
  subst; cbn [run perform ilen ea wPC wA wX wY wSP wN wV wD wI wZ wC wM wNZ A X Y SP PC fN fV fD fI fZ fC M].

Ltac fin := repeat split; cbn [A X Y SP PC fN fV fD fI fZ fC M]; try reflexivity; try assumption; rewrite ?w16_small by lia; try reflexivity; try lia.

Notation code m pc op := (ld m pc = op) (only parsing).

Lemma i_txa a x y sp pc z k m : At a x y sp pc z k m -> 0 <= pc < 65530 -> code m pc 138 -> At x x y sp (pc + 1) (x =? 0) k m.
Proof. inst (138, TXA, IMP, 2, false). fin. Qed.
Lemma i_tya a x y sp pc z k m : At a x y sp pc z k m -> 0 <= pc < 65530 -> code m pc 152 -> At y x y sp (pc + 1) (y =? 0) k m.
Proof. inst (152, TYA, IMP, 2, false). fin. Qed.
Lemma i_tax a x y sp pc z k m : At a x y sp pc z k m -> 0 <= pc < 65530 -> code m pc 170 -> At a a y sp (pc + 1) (a =? 0) k m.
Proof. inst (170, TAX, IMP, 2, false). fin. Qed.
Lemma i_tay a x y sp pc z k m : At a x y sp pc z k m -> 0 <= pc < 65530 -> code m pc 168 -> At a x a sp (pc + 1) (a =? 0) k m.
Proof. inst (168, TAY, IMP, 2, false). fin. Qed.
Lemma i_iny a x y sp pc z k m : At a x y sp pc z k m -> 0 <= pc < 65530 -> code m pc 200 -> At a x ((y + 1) mod 256) sp (pc + 1) ((y + 1) mod 256 =? 0) k m.
Proof. inst (200, INY, IMP, 2, false). fin. Qed.
Lemma i_dex a x y sp pc z k m : At a x y sp pc z k m -> 0 <= pc < 65530 -> code m pc 202 -> At a ((x - 1) mod 256) y sp (pc + 1) ((x - 1) mod 256 =? 0) k m.
Proof. inst (202, DEX, IMP, 2, false). fin. Qed.
Lemma i_sec a x y sp pc z k m : At a x y sp pc z k m -> 0 <= pc < 65530 -> code m pc 56 -> At a x y sp (pc + 1) z true m.
Proof. inst (56, SEC, IMP, 2, false). fin. Qed.
Lemma i_rol a x y sp pc z k m : At a x y sp pc z k m -> 0 <= pc < 65530 -> code m pc 42 -> At ((2 * a + b2z k) mod 256) x y sp (pc + 1) ((2 * a + b2z k) mod 256 =? 0) (128 <=? a) m.
Proof. inst (42, ROLA, IMP, 2, false). unfold acc_shift, rol. cbn. fin. Qed.
Lemma i_lsr a x y sp pc z k m : At a x y sp pc z k m -> 0 <= pc < 65530 -> code m pc 74 -> At (a / 2) x y sp (pc + 1) (a / 2 =? 0) (a mod 2 =? 1) m.
Proof. inst (74, LSRA, IMP, 2, false). unfold acc_shift, lsr. cbn. fin. Qed.

Lemma i_lda_imm a x y sp pc z k m v : At a x y sp pc z k m -> 0 <= pc < 65530 -> code m pc 169 -> ld m (pc + 1) = v -> At v x y sp (pc + 2) (v =? 0) k m.
Proof. inst (169, LDA, IMM, 2, false). rewrite (w16_small (_ + 1)) by lia. fin. Qed.
Lemma i_ldx_imm a x y sp pc z k m v : At a x y sp pc z k m -> 0 <= pc < 65530 -> code m pc 162 -> ld m (pc + 1) = v -> At a v y sp (pc + 2) (v =? 0) k m.
Proof. inst (162, LDX, IMM, 2, false). rewrite (w16_small (_ + 1)) by lia. fin. Qed.
Lemma i_sta_zp a x y sp pc z k m p : At a x y sp pc z k m -> 0 <= pc < 65530 -> code m pc 133 -> ld m (pc + 1) = p -> At a x y sp (pc + 2) z k (st m p a).
Proof. inst (133, STA, ZP, 3, false). unfold arg8. rewrite (w16_small (_ + 1)) by lia. fin. Qed.
Lemma i_asl_zp a x y sp pc z k m p : At a x y sp pc z k m -> 0 <= pc < 65530 -> code m pc 6 -> ld m (pc + 1) = p ->
  At a x y sp (pc + 2) ((2 * ld m p) mod 256 =? 0) (128 <=? ld m p) (st m p ((2 * ld m p) mod 256)).
Proof. inst (6, ASL, ZP, 5, false). unfold mem_shift, asl, arg8. cbn [A X Y SP PC fN fV fD fI fZ fC M wC wM wNZ wZ wN wPC]. rewrite (w16_small (_ + 1)) by lia. fin. Qed.
Lemma i_adc_zp a x y sp pc z k m p : At a x y sp pc z k m -> 0 <= pc < 65530 -> code m pc 101 -> ld m (pc + 1) = p ->
  At ((a + ld m p + b2z k) mod 256) x y sp (pc + 2) ((a + ld m p + b2z k) mod 256 =? 0) (255 <? a + ld m p + b2z k) m.
Proof.
  inst (101, ADC, ZP, 3, false). unfold adc, arg8. cbn [A X Y SP PC fN fV fD fI fZ fC M wC wM wNZ wZ wN wPC]. rewrite Ed. cbn [negb]. rewrite (w16_small (_ + 1)) by lia. fin.
Qed.
Definition w2 (m : mem) (pc : Z) : Z := ld m (pc + 1) + 256 * ld m (pc + 2).
Lemma i_lda_abs a x y sp pc z k m p : At a x y sp pc z k m -> 0 <= pc < 65530 -> code m pc 173 -> w2 m pc = p -> At (ld m p) x y sp (pc + 3) (ld m p =? 0) k m.
Proof. inst (173, LDA, ABS, 4, false). unfold arg16, mw. rewrite (w16_small (_ + 1)), (w16_small (_ + 2)) by lia. fold (w2 (M c) (PC c)). fin. Qed.
Lemma i_inc_abs a x y sp pc z k m p : At a x y sp pc z k m -> 0 <= pc < 65530 -> code m pc 238 -> w2 m pc = p ->
  At a x y sp (pc + 3) ((ld m p + 1) mod 256 =? 0) k (st m p ((ld m p + 1) mod 256)).
Proof.
  inst (238, INC, ABS, 6, false). unfold mem_step, arg16, mw. cbn [A X Y SP PC fN fV fD fI fZ fC M wC wM wNZ wZ wN wPC]. rewrite (w16_small (_ + 1)), (w16_small (_ + 2)) by lia.
  fold (w2 (M c) (PC c)). fin.
Qed.
Lemma i_sta_abs a x y sp pc z k m p : At a x y sp pc z k m -> 0 <= pc < 65530 -> code m pc 141 -> w2 m pc = p -> At a x y sp (pc + 3) z k (st m p a).
Proof. inst (141, STA, ABS, 4, false). unfold arg16, mw. rewrite (w16_small (_ + 1)), (w16_small (_ + 2)) by lia. fold (w2 (M c) (PC c)). fin. Qed.
Lemma i_sta_absy a x y sp pc z k m p : At a x y sp pc z k m -> 0 <= pc < 65530 -> code m pc 153 -> (w2 m pc + y) mod 65536 = p -> At a x y sp (pc + 3) z k (st m p a).
Proof. inst (153, STA, ABSY, 5, false). unfold arg16, mw. rewrite (w16_small (_ + 1)), (w16_small (_ + 2)) by lia. fold (w2 (M c) (PC c)). fin. Qed.
Lemma i_lda_indy a x y sp pc z k m q p : At a x y sp pc z k m -> 0 <= pc < 65530 -> code m pc 177 -> ld m (pc + 1) = q -> (ld m q + 256 * ld m ((q + 1) mod 256) + y) mod 65536 = p ->
  At (ld m p) x y sp (pc + 2) (ld m p =? 0) k m.
Proof. inst (177, LDA, INDY, 5, true). unfold arg8, mw. rewrite (w16_small (_ + 1)) by lia. fin. Qed.
Lemma i_jmp a x y sp pc z k m p : At a x y sp pc z k m -> 0 <= pc < 65530 -> code m pc 76 -> w2 m pc = p -> At a x y sp p z k m.
Proof. inst (76, JMP, ABS, 3, false). unfold arg16, mw. rewrite (w16_small (_ + 1)), (w16_small (_ + 2)) by lia. fold (w2 (M c) (PC c)). fin. Qed.

(* branches *)
Lemma i_bne a x y sp pc z k m v t : At a x y sp pc z k m -> 0 <= pc < 65530 -> code m pc 208 -> ld m (pc + 1) = v -> pc + 2 + signed v = t -> 0 <= t < 65536 ->
  At a x y sp (if z then pc + 2 else t) z k m.
Proof.
  inst (208, BNE, REL, 2, false). unfold taken, arg8. cbn [A X Y SP PC fN fV fD fI fZ fC M wPC]. rewrite (w16_small (_ + 1)), (w16_small (_ + 2)) by lia. 
  destruct (fZ c) eqn:F; cbn [negb wPC A X Y SP PC fN fV fD fI fZ fC M]; fin.
Qed.
Lemma i_beq a x y sp pc z k m v t : At a x y sp pc z k m -> 0 <= pc < 65530 -> code m pc 240 -> ld m (pc + 1) = v -> pc + 2 + signed v = t -> 0 <= t < 65536 ->
  At a x y sp (if z then t else pc + 2) z k m.
Proof.
  inst (240, BEQ, REL, 2, false). unfold taken, arg8. cbn [A X Y SP PC fN fV fD fI fZ fC M wPC]. rewrite (w16_small (_ + 1)), (w16_small (_ + 2)) by lia. 
  destruct (fZ c) eqn:F; cbn [negb wPC A X Y SP PC fN fV fD fI fZ fC M]; fin.
Qed.
Lemma i_bcc a x y sp pc z k m v t : At a x y sp pc z k m -> 0 <= pc < 65530 -> code m pc 144 -> ld m (pc + 1) = v -> pc + 2 + signed v = t -> 0 <= t < 65536 ->
  At a x y sp (if k then pc + 2 else t) z k m.
Proof.
  inst (144, BCC, REL, 2, false). unfold taken, arg8. cbn [A X Y SP PC fN fV fD fI fZ fC M wPC]. rewrite (w16_small (_ + 1)), (w16_small (_ + 2)) by lia. 
  destruct (fC c) eqn:F; cbn [negb wPC A X Y SP PC fN fV fD fI fZ fC M]; fin.
Qed.
Lemma i_bcs a x y sp pc z k m v t : At a x y sp pc z k m -> 0 <= pc < 65530 -> code m pc 176 -> ld m (pc + 1) = v -> pc + 2 + signed v = t -> 0 <= t < 65536 ->
  At a x y sp (if k then t else pc + 2) z k m.
Proof.
  inst (176, BCS, REL, 2, false). unfold taken, arg8. cbn [A X Y SP PC fN fV fD fI fZ fC M wPC]. rewrite (w16_small (_ + 1)), (w16_small (_ + 2)) by lia. 
  destruct (fC c) eqn:F; cbn [negb wPC A X Y SP PC fN fV fD fI fZ fC M]; fin.
Qed.
(* calls: the code is not in the stack *)
Definition pushed (m : mem) (sp v : Z) : mem := st (st m (256 + sp) (v / 256)) (256 + w8 (sp - 1)) (v mod 256).
Lemma i_jsr a x y sp pc z k m p : At a x y sp pc z k m -> 512 <= pc < 65530 -> code m pc 32 -> w2 m pc = p -> byte sp ->
  At a x y (w8 (sp - 2)) p z k (pushed m sp (pc + 2)).
Proof.
  inst (32, JSR, ABS, 6, false). unfold push_word, push_byte. cbn [A X Y SP PC fN fV fD fI fZ fC M wC wM wSP wPC]. rewrite !w16_small by lia. unfold byte in *.
  assert (W : 0 <= w8 (SP c - 1) < 256) by (unfold w8; lia).
  assert (D : w8 ((PC c + 2) / 256) = (PC c + 2) / 256) by (unfold w8; lia). rewrite D.
  fold (pushed (M c) (SP c) (PC c + 2)).
  fin.
  - unfold w8. lia.
  - unfold pushed. rewrite !ld_st_other by lia. reflexivity.
Qed.
Lemma i_rts a x y sp pc z k m r : At a x y sp pc z k m -> 512 <= pc < 65530 -> code m pc 96 -> ld m (256 + w8 (sp + 1)) + 256 * ld m (256 + w8 (w8 (sp + 1) + 1)) = r -> 0 <= r < 65535 ->
  At a x y (w8 (w8 (sp + 1) + 1)) (r + 1) z k m.
Proof.
  inst (96, RTS, IMP, 6, false). unfold pull_word, pull_byte. cbn [A X Y SP PC fN fV fD fI fZ fC M wC wM wSP wPC]. fin.
Qed.
End Step.
