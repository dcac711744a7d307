(* The hardware registers *)
From Verif Require Import Base BaseFacts MemModel InfoModel PokeyModel MachineModel NoiseSpec NoiseProofs FrameProofs HardwareSpec.

Lemma land_256 a b : Z.land a b = 256 * Z.land (a / 256) (b / 256) + Z.land (a mod 256) (b mod 256).
Proof.
  rewrite (Z.div_mod (Z.land a b) 256) at 1 by lia. f_equal.
  - f_equal. change 256 with (2 ^ 8). rewrite <- !Z.shiftr_div_pow2 by lia. apply Z.shiftr_land.
  - change 256 with (2 ^ 8). rewrite <- !Z.land_ones by lia. rewrite (Z.land_comm b), Z.land_assoc, <- (Z.land_assoc a (Z.ones 8)), Z.land_diag, <- !Z.land_assoc. f_equal. apply Z.land_comm.
Qed.

Lemma land_mirror a k : 0 <= a < 65536 -> 0 <= k <= 8 -> Z.land a (65280 + (2 ^ k - 1)) = 256 * (a / 256) + a mod 2 ^ k.
Proof.
  intros Ha Hk. assert (P : 1 <= 2 ^ k <= 256) by (change 256 with (2 ^ 8); change 1 with (2 ^ 0); split; apply Z.pow_le_mono_r; lia).
  rewrite land_256. replace ((65280 + (2 ^ k - 1)) / 256) with 255 by lia. replace ((65280 + (2 ^ k - 1)) mod 256) with (2 ^ k - 1) by lia.
  change 255 with (Z.ones 8). rewrite Z.land_ones by lia. replace ((a / 256) mod 2 ^ 8) with (a / 256) by (change (2 ^ 8) with 256; lia). f_equal.
  replace (2 ^ k - 1) with (Z.ones k) by (rewrite Z.ones_equiv; lia). rewrite Z.land_ones by lia. change 256 with (2 ^ 8). rewrite <- !Z.land_ones by lia. rewrite <- Z.land_assoc. f_equal.
  rewrite Z.land_comm, Z.land_ones by lia. rewrite Z.ones_equiv. apply Z.mod_small. change (2 ^ 8) with 256. lia.
Qed.

Lemma land_5 a : 0 <= a < 65536 -> Z.land a 65311 = 256 * (a / 256) + a mod 32.
Proof. intros H. exact (land_mirror a 5 H ltac:(lia)). Qed.
Lemma land_4 a : 0 <= a < 65536 -> Z.land a 65295 = 256 * (a / 256) + a mod 16.
Proof. intros H. exact (land_mirror a 4 H ltac:(lia)). Qed.
Lemma land_0 a : 0 <= a < 65536 -> Z.land a 65280 = 256 * (a / 256).
Proof. intros H. etransitivity; [exact (land_mirror a 0 H ltac:(lia))|]. change (2 ^ 0) with 1. rewrite Z.mod_1_r. lia. Qed.
Lemma land_15 a : Z.land a 15 = a mod 16.
Proof. change 15 with (Z.ones 4). now rewrite Z.land_ones by lia. Qed.

(* the pages with hardware *)
Lemma hardware_page a : 0 <= a < 65536 -> (Z.land a 63744 =? 53248) = ((a / 256 =? 208) || (a / 256 =? 210) || (a / 256 =? 212) || (a / 256 =? 214)).
Proof.
  intros H. rewrite land_256. change (63744 / 256) with 249. change (63744 mod 256) with 0. rewrite Z.land_0_r, Z.add_0_r. set (p := a / 256). assert (P : 0 <= p < 256) by (unfold p; lia). clearbody p.
  assert (X : forallb (fun n => Bool.eqb (256 * Z.land (Z.of_nat n) 249 =? 53248) ((Z.of_nat n =? 208) || (Z.of_nat n =? 210) || (Z.of_nat n =? 212) || (Z.of_nat n =? 214))) (seq 0 256) = true) by (vm_compute; reflexivity).
  rewrite forallb_forall in X. specialize (X (Z.to_nat p) ltac:(apply in_seq; lia)). rewrite Z2Nat.id in X by lia. now apply eqb_prop in X.
Qed.

Lemma low_nibble v : Z.land (Z.lnot v) 15 = 15 - v mod 16.
Proof. change 15 with (Z.ones 4) at 1. rewrite Z.land_ones by lia. change (2 ^ 4) with 16. unfold Z.lnot. lia. Qed.

Lemma selected_chip a pp : 0 <= a < 65536 -> pp_extraPokeyMask pp = 0 \/ pp_extraPokeyMask pp = 16 -> selected a pp = chip pp a.
Proof.
  intros Ha [M|M]; unfold selected, chip, second_chip; rewrite M.
  - rewrite Z.land_0_r. reflexivity.
  - change (negb (16 =? 0)) with true. cbn [andb].
    assert (E : Z.land a 16 = 16 * ((a / 16) mod 2)).
    { change 16 with (Z.shiftl 1 4) at 1. apply Z.bits_inj'. intros n Hn. rewrite Z.land_spec.
      replace (16 * ((a / 16) mod 2)) with (Z.shiftl (Z.land (Z.shiftr a 4) 1) 4) by (rewrite Z.shiftl_mul_pow2, Z.shiftr_div_pow2 by lia; change 1 with (Z.ones 1); rewrite Z.land_ones by lia; change (2 ^ 4) with 16; change (2 ^ 1) with 2; lia).
      rewrite !Z.shiftl_spec, Z.land_spec by lia. destruct (Z.lt_ge_cases n 4) as [L|L].
      - rewrite !(Z.testbit_neg_r _ (n - 4)) by lia. apply andb_false_r.
      - rewrite Z.shiftr_spec by lia. f_equal. f_equal. lia. }
    rewrite E. assert (X : (16 * ((a / 16) mod 2) =? 0) = negb (16 <=? a mod 32)) by lia. rewrite X, negb_involutive. reflexivity.
Qed.

(* ---- reading ---- *)
Lemma mem_rd_ok s a : 0 <= a < 65536 -> mem_rd s a = Ok (ld (m_memory s) a).
Proof. intros H. unfold mem_rd, rd, in_mem. now replace ((0 <=? a) && (a <? 65536)) with true by lia. Qed.

Lemma frame_length_ok i : frame_cycles i = frame_length (i_ntsc i).
Proof. unfold frame_cycles, frame_length. now destruct (i_ntsc i). Qed.

Lemma read_ok s a : 0 <= a < 65536 -> 0 <= m_cycle s -> pp_extraPokeyMask (m_pokeys s) = 0 \/ pp_extraPokeyMask (m_pokeys s) = 16 ->
  0 <= pk_polyIndex (chip (m_pokeys s) a) -> cpu_peek s a = Ok (input_value s a).
Proof.
  intros Ha Hc HM HP. unfold cpu_peek. rewrite hardware_page by exact Ha.
  assert (A16 : a mod 16 = (a mod 32) mod 16) by lia. assert (A32 : 0 <= a mod 32 < 32) by lia.
  unfold input_value. rewrite <- (selected_chip a) in * by assumption.
  assert (PR : Z.land a 15 = 10 -> pair_peek a (m_cycle s) (m_pokeys s) = Ok (let p := selected a (m_pokeys s) in let n := pk_polyIndex p + m_cycle s in if pk_init p then 255 else if Z.testbit (pk_audctl p) 7 then register 9 5 (n + 1) mod 256 else register 17 5 (n + 9) mod 256)) by (intros E; now apply random_read).
  assert (PI : Z.land a 15 = 14 -> pair_peek a (m_cycle s) (m_pokeys s) = Ok (pk_irqst (selected a (m_pokeys s)))) by (intros E; unfold pair_peek; fold (selected a (m_pokeys s)); now rewrite E).
  rewrite land_15, A16 in PR, PI. cbv zeta in *. unfold input_at. rewrite A16.
  assert (V : m_cycle s / 114 / 2 = Z.quot (m_cycle s) 228) by (rewrite Z.div_div, Z.quot_div_nonneg by lia; reflexivity).
  pose proof (mem_rd_ok s a Ha) as MR. pose proof (land_5 a Ha) as L5.
  set (q := a mod 32) in *. clearbody q. set (p := a / 256) in *. clearbody p.
  destruct (Z.eqb_spec p 208) as [->|N1]; [|destruct (Z.eqb_spec p 210) as [->|N2]; [|destruct (Z.eqb_spec p 212) as [->|N3]; [|destruct (Z.eqb_spec p 214) as [->|N4]]]]; cbn [orb]; try exact MR;
    unfold peek_hardware; rewrite L5;
    assert (Q : In q [0;1;2;3;4;5;6;7;8;9;10;11;12;13;14;15;16;17;18;19;20;21;22;23;24;25;26;27;28;29;30;31]) by (cbn [In]; clear - A32; lia); clear A32 L5 A16;
    cbn [In] in Q; repeat (destruct Q as [<-|Q]); try contradiction; cbn -[m_memory m_cycle pair_peek mem_rd selected register Z.land Z.quot Z.div Z.modulo frame_cycles frame_length] in *; try exact MR; try reflexivity.
  all: try (rewrite low_nibble; reflexivity).
  all: try (now apply PR); try (now apply PI).
  all: rewrite frame_length_ok, V; reflexivity.
Qed.

(* ---- writing ---- *)
Lemma wsync_ok c : 0 <= c -> c + (if Z.rem c 114 <=? 106 then 106 else 220) - Z.rem c 114 = c + (106 - c) mod 114.
Proof. intros H. rewrite Z.rem_mod_nonneg by lia. destruct (Z.leb_spec (c mod 114) 106); lia. Qed.

Lemma bit_3 v : Z.land v 8 = 8 * Z.b2z (Z.testbit v 3).
Proof.
  change 8 with (2 ^ 3) at 1. destruct (Z.testbit v 3) eqn:E; cbn [Z.b2z].
  - change (8 * 1) with (2 ^ 3). apply Z.bits_inj'. intros n Hn. rewrite Z.land_spec. destruct (Z.eq_dec n 3) as [->|D]; [now rewrite E, Z.pow2_bits_true by lia|rewrite Z.pow2_bits_false by lia; apply andb_false_r].
  - apply Z.bits_inj'. intros n Hn. rewrite Z.land_spec, Z.bits_0. destruct (Z.eq_dec n 3) as [->|D]; [now rewrite E|rewrite Z.pow2_bits_false by lia; apply andb_false_r].
Qed.

Lemma same_chip pp a : 0 <= a < 65536 -> pp_extraPokeyMask pp = 0 \/ pp_extraPokeyMask pp = 16 -> negb (Z.land a (pp_extraPokeyMask pp) =? 0) = second_chip pp a.
Proof.
  intros Ha HM. pose (b := pp_basePokey pp). pose proof (selected_chip a (set_pp_extraPokey (set_pk_irqst 1 b) (set_pp_basePokey (set_pk_irqst 0 b) pp)) Ha) as S.
  unfold selected, chip, second_chip in S. cbn [set_pp_extraPokey set_pp_basePokey pp_extraPokeyMask pp_extraPokey pp_basePokey] in S. specialize (S HM). unfold second_chip.
  destruct (negb (Z.land a (pp_extraPokeyMask pp) =? 0)), (negb (pp_extraPokeyMask pp =? 0) && (16 <=? a mod 32)); try reflexivity; apply (f_equal pk_irqst) in S; discriminate S.
Qed.

Lemma write_ok s a data : 0 <= a < 65536 -> 0 <= m_cycle s -> pp_extraPokeyMask (m_pokeys s) = 0 \/ pp_extraPokeyMask (m_pokeys s) = 16 ->
  cpu_poke a data s = output_effect a data s.
Proof.
  intros Ha Hc HM. unfold cpu_poke, output_effect, output_at. rewrite hardware_page by exact Ha.
  assert (MW : mem_wr a data s = Ok (set_m_memory (st (m_memory s) a (data mod 256)) s)) by (unfold mem_wr, wr, in_mem; replace ((0 <=? a) && (a <? 65536)) with true by lia; reflexivity).
  assert (SH : Z.shiftr a 8 = a / 256) by (rewrite Z.shiftr_div_pow2 by lia; reflexivity).
  pose proof (land_5 a Ha) as L5. pose proof (land_4 a Ha) as L4. pose proof (land_0 a Ha) as L0.
  assert (L3 : Z.land a 3 = a mod 4) by (change 3 with (Z.ones 2); now rewrite Z.land_ones by lia).
  pose proof (same_chip (m_pokeys s) a Ha HM) as SC. unfold poke_hardware. rewrite SH, L5, L4, L0, L3.
  assert (E1 : (256 * (a / 256) + a mod 16 =? 54282) = ((a / 256 =? 212) && (a mod 16 =? 10))) by lia.
  assert (E2 : (256 * (a / 256) + a mod 16 =? 54287) = ((a / 256 =? 212) && (a mod 16 =? 15))) by lia.
  assert (E3 : (256 * (a / 256) + a mod 32 =? 53279) = ((a / 256 =? 208) && (a mod 32 =? 31))) by lia.
  rewrite E1, E2, E3. clear E1 E2 E3. set (page := a / 256) in *.
  destruct (Z.eqb_spec page 210) as [P2|P2].
  { replace (page =? 208) with false by lia. cbn [orb]. unfold pair_poke, chip, with_chip. rewrite SC.
    destruct (second_chip (m_pokeys s) a); (destruct (pokey_poke _ _ _ _ _) as [[t p]| | |]; cbn [bind]; [|reflexivity..]); f_equal; destruct s; cbn; (destruct (Z.ltb_spec t m_nextEventCycle) as [L|L]; [rewrite Z.min_l by lia; reflexivity|rewrite Z.min_r by lia; reflexivity]). }
  destruct (Z.eqb_spec page 208) as [P0|P0], (Z.eqb_spec page 212) as [P4|P4], (Z.eqb_spec page 214) as [P6|P6]; try (exfalso; clear - P0 P4 P6; lia); cbn [orb andb]; try exact MW.
  all: try (destruct (Z.eqb_spec (a mod 16) 10) as [Q10|Q10]; [f_equal; f_equal; now apply wsync_ok|]; destruct (Z.eqb_spec (a mod 16) 15) as [Q15|Q15]; [f_equal; f_equal; unfold vblank; replace (m_cycle s <? 28292) with (m_cycle s <=? 28291) by lia; reflexivity|]).
  all: destruct (256 * page =? i_covox (m_info s)); [clear|].
  all: try exact MW.
  1,3,4: cbv zeta; unfold at_; set (old := nth _ (m_covox s) 0); replace (data - old =? 0) with (data =? old) by lia; destruct (data =? old); [reflexivity|]; rewrite Z.shiftl_mul_pow2 by lia; unfold left_level, right_level; assert (C : 0 <= a mod 4 < 4) by lia; set (c := a mod 4) in *; clearbody c;
    assert (X : c = 0 \/ c = 1 \/ c = 2 \/ c = 3) by (clear - C; lia); destruct X as [->|[->|[->| ->]]]; cbn [Z.eqb Pos.eqb orb]; (destruct (add_external_delta _ _ _ _); reflexivity).
  destruct (a mod 32 =? 31); [|exact MW]. cbv zeta. rewrite !bit_3, Z.shiftl_mul_pow2 by lia.
  replace ((8 * Z.b2z (Z.testbit (m_consol s) 3) - 8 * Z.b2z (Z.testbit data 3)) * 2 ^ 20) with ((Z.b2z (Z.testbit (m_consol s) 3) - Z.b2z (Z.testbit data 3)) * 2 ^ 23) by (change (2 ^ 23) with (8 * 2 ^ 20); ring).
  destruct (Z.testbit (m_consol s) 3), (Z.testbit data 3); cbn [Z.b2z Bool.eqb]; try reflexivity;
    unfold left_level, right_level; cbn -[add_external_delta]; (destruct (add_external_delta _ _ _ _); [|reflexivity..]); cbn -[add_external_delta]; (destruct (add_external_delta _ _ _ _); reflexivity).
Qed.

(* ---- NMIST ---- *)
Lemma nmires_ok s a data s' : 0 <= a < 65536 -> output_at (i_covox (m_info s)) a = Nmires -> cpu_poke a data s = Ok s' ->
  m_info s' = m_info s /\ m_nmist s' = if m_cycle s <=? vblank then NMI_ON_V_BLANK else NMI_RESET.
Proof.
  intros Ha O E. assert (P : a / 256 = 212 /\ a mod 16 = 15).
  { unfold output_at in O. destruct (a / 256 =? 210); [discriminate|]. destruct ((a / 256 =? 212) && (a mod 16 =? 10)); [discriminate|]. destruct ((a / 256 =? 212) && (a mod 16 =? 15)) eqn:X; [lia|].
    destruct (_ && (_ =? i_covox _)); [discriminate|]. destruct ((a / 256 =? 208) && _); discriminate. }
  unfold cpu_poke in E. rewrite hardware_page in E by exact Ha. replace (a / 256 =? 212) with true in E by lia. rewrite !orb_true_r in E. cbn [orb] in E.
  unfold poke_hardware in E. rewrite land_4 in E by exact Ha. rewrite Z.shiftr_div_pow2 in E by lia. change (2 ^ 8) with 256 in E. destruct P as [-> ->] in E. cbn [Z.eqb Pos.eqb Z.mul Pos.mul Z.add Pos.add] in E.
  injection E as <-. split; [reflexivity|]. cbn. unfold vblank. replace (m_cycle s <? 28292) with (m_cycle s <=? 28291) by lia. reflexivity.
Qed.

Definition state_at (F frame reset : Z) (n : nmi_status) : Prop :=
  match n with
  | NMI_RESET => F * frame + vblank < reset <= F * (frame + 1) + vblank
  | NMI_ON_V_BLANK => F * (frame - 1) + vblank < reset <= F * frame + vblank
  | NMI_WAS_V_BLANK => reset <= F * (frame - 1) + vblank
  end.

Lemma history_state s0 s frame reset : history s0 s frame reset -> m_info s = m_info s0 /\ state_at (frame_length (i_ntsc (m_info s0))) frame reset (m_nmist s).
Proof.
  assert (V : frame_length (i_ntsc (m_info s0)) = 29868 \/ frame_length (i_ntsc (m_info s0)) = 35568) by (unfold frame_length; destruct (i_ntsc (m_info s0)); auto).
  induction 1 as [N|s s' frame reset a data H [II I] Ha O C E|s s' frame reset H [II I] N J|s s' frame reset H [II I] N J].
  - split; [reflexivity|]. rewrite N. cbn [state_at]. unfold vblank. destruct V as [-> | ->]; lia.
  - destruct (nmires_ok s a data s' Ha O E) as [J ->]. split; [congruence|]. clear - V C. destruct (Z.leb_spec (m_cycle s) vblank); cbn [state_at]; unfold vblank in *; destruct V as [V|V]; rewrite V in *; lia.
  - split; [congruence|]. rewrite N. unfold frame_start. cbv zeta. cbn [m_nmist set_m_nmist set_m_nextEventCycle set_m_nextScanlineCycle]. clear - I V. destruct (m_nmist s); cbn [state_at] in *; unfold vblank in *; destruct V as [V|V]; rewrite V in *; lia.
  - split; [congruence|]. now rewrite N.
Qed.

Lemma nmist_history s0 s frame reset : history s0 s frame reset -> 0 <= m_cycle s < frame_length (i_ntsc (m_info s0)) + vblank ->
  let F := frame_length (i_ntsc (m_info s0)) in
  (nmist_value s = 95 /\ vblank_since F reset (F * frame + m_cycle s)) \/ (nmist_value s = 31 /\ ~ vblank_since F reset (F * frame + m_cycle s)).
Proof.
  intros H C F. destruct (history_state s0 s frame reset H) as [_ S]. fold F in S, C. unfold nmist_value, vblank_since.
  assert (V : F = 29868 \/ F = 35568) by (unfold F, frame_length; destruct (i_ntsc (m_info s0)); auto). clearbody F. clear H.
  destruct (m_nmist s); cbn [state_at] in S.
  - right. split; [reflexivity|]. intros (k & K). unfold vblank in *. destruct V as [V|V]; rewrite V in *; lia.
  - destruct (Z.ltb_spec (m_cycle s) vblank); [right|left]; (split; [reflexivity|]); [intros (k & K); unfold vblank in *; destruct V as [V|V]; rewrite V in *; lia|exists frame; lia].
  - left. split; [reflexivity|]. exists (frame - 1). unfold vblank in *. destruct V as [V|V]; rewrite V in *; lia.
Qed.

(* ---- VCOUNT ---- *)
Lemma vcount_ok s a : 0 <= m_cycle s -> input_at a = Vcount ->
  let F := frame_length (i_ntsc (m_info s)) in
  (m_cycle s < F -> exists line, 114 * line <= m_cycle s < 114 * (line + 1) /\ (line = 2 * input_value s a \/ line = 2 * input_value s a + 1)) /\
  (F < m_cycle s -> input_value s a = 0) /\ 0 <= input_value s a <= (if i_ntsc (m_info s) then 131 else 156).
Proof.
  intros C I F. unfold input_value. rewrite I. fold F. assert (V : F = 114 * (if i_ntsc (m_info s) then 262 else 312)) by reflexivity. destruct (Z.ltb_spec F (m_cycle s)) as [L|L].
  - repeat split; destruct (i_ntsc (m_info s)); lia.
  - split; [intros L2; exists (m_cycle s / 114); lia|]. split; [lia|]. destruct (i_ntsc (m_info s)); lia.
Qed.
