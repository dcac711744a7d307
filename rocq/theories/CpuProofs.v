(* The emulated 6502: invariants of single operations and agreement with CpuSpec.v *)
From Verif Require Import Base BaseFacts Loop MemModel InfoModel InfoProofs PokeyModel MachineModel CpuSpec CpuArith.

(* ---- views ---- *)
(* the 6502 registers and flags held by the emulator *)
Definition view (s : asap) : cpu :=
  mkCpu (m_a s) (m_x s) (m_y s) (m_s s) (m_pc s mod 65536)
    (128 <=? m_nz s) (Z.testbit (m_vdi s) 6) (Z.testbit (m_vdi s) 3) (Z.testbit (m_vdi s) 2)
    (m_nz s mod 256 =? 0) (m_c s =? 1) (m_memory s).

(* everything except registers, flags, memory and the cycle counter *)
Definition rest (s : asap) :=
  (m_nextEventCycle s, m_nextScanlineCycle s, m_nmist s, m_consol s, m_covox s, m_pokeys s, m_info s,
   m_nextPlayerCycle s, m_tmcPerFrameCounter s, m_currentSong s, m_currentDuration s, m_blocksPlayed s,
   m_silenceCycles s, m_silenceCyclesCounter s, m_gtiaOrCovoxPlayedThisFrame s, m_currentSampleRate s).

(* the hardware ranges *)
Record cpu_ok (s : asap) : Prop := mkCpuOk {
  ok_a : byte (m_a s);
  ok_x : byte (m_x s);
  ok_y : byte (m_y s);
  ok_s : byte (m_s s);
  ok_nz : 0 <= m_nz s < 512;
  ok_c : 0 <= m_c s < 2;
  ok_vdi : Z.land (m_vdi s) 76 = m_vdi s;
  ok_mem : byte_mem (m_memory s)
}.

(* ---- arithmetic ---- *)
Lemma land_65535 v : Z.land v 65535 = v mod 65536.
Proof. change 65535 with (2 ^ 16 - 1). rewrite land_ones_mod by lia. reflexivity. Qed.
Lemma land_15 v : Z.land v 15 = v mod 16.
Proof. change 15 with (2 ^ 4 - 1). rewrite land_ones_mod by lia. reflexivity. Qed.
Lemma land_1 v : Z.land v 1 = v mod 2.
Proof. change 1 with (2 ^ 1 - 1) at 1. rewrite land_ones_mod by lia. reflexivity. Qed.
Lemma shl n v : 0 <= n -> Z.shiftl v n = v * 2 ^ n.
Proof. intros. now rewrite Z.shiftl_mul_pow2. Qed.
Lemma shr n v : 0 <= n -> Z.shiftr v n = v / 2 ^ n.
Proof. intros. now rewrite Z.shiftr_div_pow2. Qed.
Lemma shl8 v : Z.shiftl v 8 = v * 256. Proof. now rewrite shl by lia. Qed.
Lemma shl1 v : Z.shiftl v 1 = v * 2. Proof. now rewrite shl by lia. Qed.
Lemma shl7 v : Z.shiftl v 7 = v * 128. Proof. now rewrite shl by lia. Qed.
Lemma shr8 v : Z.shiftr v 8 = v / 256. Proof. now rewrite shr by lia. Qed.
Lemma shr7 v : Z.shiftr v 7 = v / 128. Proof. now rewrite shr by lia. Qed.
Lemma shr1 v : Z.shiftr v 1 = v / 2. Proof. now rewrite shr by lia. Qed.

Ltac arith := rewrite ?land_255, ?land_65535, ?land_15, ?land_1, ?shl8, ?shl1, ?shl7, ?shr8, ?shr7, ?shr1.

Lemma zrange_In n v : 0 <= v < Z.of_nat n -> In v (zrange n).
Proof.
  intros H. unfold zrange. apply in_map_iff. exists (Z.to_nat v). split; [lia|]. apply in_seq. lia.
Qed.

(* a property of bytes checked by computation *)
Lemma byte_sweep (p : Z -> bool) : forallb p (zrange 256) = true -> forall v, byte v -> p v = true.
Proof. intros H v Hv. eapply forallb_forall in H; [exact H|]. apply zrange_In. unfold byte in Hv. lia. Qed.
Lemma nz_sweep (p : Z -> bool) : forallb p (zrange 512) = true -> forall v, 0 <= v < 512 -> p v = true.
Proof. intros H v Hv. eapply forallb_forall in H; [exact H|]. apply zrange_In. lia. Qed.

Lemma vdi_sweep (p : Z -> bool) : forallb p [0; 4; 8; 12; 64; 68; 72; 76] = true -> forall v, Z.land v 76 = v -> p v = true.
Proof.
  intros H v Hv.
  assert (R : 0 <= v < 128).
  { assert (E : Z.land v 127 = v).
    { rewrite <- Hv at 1. rewrite <- Z.land_assoc. exact Hv. }
    rewrite <- E. change 127 with (Z.ones 7). rewrite Z.land_ones by lia. change (2 ^ 7) with 128. lia. }
  assert (S : (implb (Z.land v 76 =? v) (existsb (Z.eqb v) [0; 4; 8; 12; 64; 68; 72; 76])) = true).
  { apply (forallb_forall (fun v => implb (Z.land v 76 =? v) (existsb (Z.eqb v) [0; 4; 8; 12; 64; 68; 72; 76])) (zrange 128));
      [vm_compute; reflexivity|]. apply zrange_In. lia. }
  rewrite Hv, Z.eqb_refl in S. cbn [implb] in S. apply existsb_exists in S. destruct S as (w & Hw & E).
  apply Z.eqb_eq in E. subst w. eapply forallb_forall in H; [exact H|exact Hw].
Qed.

Lemma byte_land a b : byte a -> byte (Z.land a b).
Proof.
  intros H. unfold byte in *. split; [apply Z.land_nonneg; lia|].
  replace (Z.land a b) with (Z.land (Z.land a b) 255).
  - rewrite land_255. lia.
  - rewrite <- Z.land_assoc, (Z.land_comm b 255), Z.land_assoc, land_255, Z.mod_small by lia. reflexivity.
Qed.
Lemma byte_lor a b : byte a -> byte b -> byte (Z.lor a b).
Proof.
  intros Ha Hb. unfold byte in *. split; [apply Z.lor_nonneg; lia|].
  assert (E : Z.lor a b = Z.land (Z.lor a b) 255).
  { rewrite Z.land_lor_distr_l, !land_255, !Z.mod_small by lia. reflexivity. }
  rewrite E, land_255. lia.
Qed.
Lemma byte_lxor a b : byte a -> byte b -> byte (Z.lxor a b).
Proof.
  intros Ha Hb. unfold byte in *. split; [rewrite Z.lxor_nonneg; lia|].
  assert (E : Z.lxor a b = Z.land (Z.lxor a b) 255).
  { assert (E1 : forall v, 0 <= v < 256 -> Z.land v 255 = v) by (intros; rewrite land_255, Z.mod_small; lia).
    rewrite <- (E1 a Ha) at 2. rewrite <- (E1 b Hb) at 2.
    apply Z.bits_inj'. intros n Hn. rewrite !Z.lxor_spec, !Z.land_spec, Z.lxor_spec, !Z.land_spec.
    rewrite <- (E1 a Ha) at 1. rewrite <- (E1 b Hb) at 1. rewrite !Z.land_spec.
    destruct (Z.testbit a n), (Z.testbit b n), (Z.testbit 255 n); reflexivity. }
  rewrite E, land_255. lia.
Qed.

(* ---- memory accesses that are in range ---- *)
Lemma in_mem_true a : 0 <= a < 65536 -> in_mem a = true.
Proof. unfold in_mem. lia. Qed.
Lemma mem_rd_ok s a : 0 <= a < 65536 -> mem_rd s a = Ok (ld (m_memory s) a).
Proof. intros. unfold mem_rd, rd. now rewrite in_mem_true. Qed.
Lemma mem_wr_ok s a v : 0 <= a < 65536 -> mem_wr a v s = Ok (set_m_memory (st (m_memory s) a (u8 v)) s).
Proof. intros. unfold mem_wr, wr. now rewrite in_mem_true. Qed.
Lemma fetch_ok s : 0 <= m_pc s < 65536 -> fetch s = Ok (ld (m_memory s) (m_pc s), skip 1 s).
Proof. intros. unfold fetch. rewrite mem_rd_ok by assumption. reflexivity. Qed.
Lemma u8_byte v : byte v -> u8 v = v.
Proof. unfold byte, u8. intros. rewrite Z.mod_small; lia. Qed.

Lemma not_hardware a : 0 <= a < 65536 -> hardware a = false -> (Z.land a 63744 =? 53248) = false /\ (Z.shiftr a 8 =? 210) = false.
Proof.
  intros Ha H. split.
  - assert (E : Z.land a 63744 = Z.land (a / 256) 249 * 256).
    { apply Z.bits_inj'. intros n Hn. rewrite Z.land_spec. rewrite <- shl8. rewrite Z.shiftl_spec by lia.
      destruct (Z_lt_ge_dec n 8).
      - rewrite (Z.testbit_neg_r _ (n - 8)) by lia. rewrite andb_comm.
        replace (Z.testbit 63744 n) with false; [reflexivity|].
        assert (n = 0 \/ n = 1 \/ n = 2 \/ n = 3 \/ n = 4 \/ n = 5 \/ n = 6 \/ n = 7) as
            [-> | [-> | [-> | [-> | [-> | [-> | [-> | ->]]]]]]] by lia; reflexivity.
      - rewrite Z.land_spec, <- shr8, Z.shiftr_spec by lia. replace (n - 8 + 8) with n by lia. f_equal.
        change 63744 with (Z.shiftl 249 8). rewrite Z.shiftl_spec by lia. reflexivity. }
    rewrite E.
    assert (T : implb (Z.land (a / 256) 249 * 256 =? 53248) (existsb (Z.eqb (a / 256)) [208; 210; 212; 214]) = true).
    { apply (byte_sweep (fun v => implb (Z.land v 249 * 256 =? 53248) (existsb (Z.eqb v) [208; 210; 212; 214])));
        [vm_compute; reflexivity|]. unfold byte. lia. }
    unfold hardware in H. rewrite H in T. destruct (Z.land (a / 256) 249 * 256 =? 53248); [discriminate T|reflexivity].
  - rewrite shr8. unfold hardware in H. cbn [existsb] in H. lia.
Qed.

Lemma cpu_peek_ok s a : 0 <= a < 65536 -> hardware a = false -> cpu_peek s a = Ok (ld (m_memory s) a).
Proof. intros Ha H. unfold cpu_peek. destruct (not_hardware a Ha H) as [-> _]. now apply mem_rd_ok. Qed.
Lemma cpu_poke_ok s a v : 0 <= a < 65536 -> hardware a = false -> cpu_poke a v s = Ok (set_m_memory (st (m_memory s) a (u8 v)) s).
Proof. intros Ha H. unfold cpu_poke. destruct (not_hardware a Ha H) as [-> _]. now apply mem_wr_ok. Qed.
Lemma peek_rmw_ok s a : 0 <= a < 65536 -> hardware a = false -> peek_rmw a s = Ok (ld (m_memory s) a, s).
Proof. intros Ha H. unfold peek_rmw. destruct (not_hardware a Ha H) as [_ ->]. rewrite mem_rd_ok by assumption. reflexivity. Qed.

(* ---- addressing modes ---- *)
Definition mode_of (am : amode) (page : bool) : mode :=
  match am with
  | IMM => M_imm | ZP => M_zp | ZPX => M_zpx | ZPY => M_zpy | ABS => M_abs
  | ABSX => if page then M_absx_read else M_absx
  | ABSY => if page then M_absy_read else M_absy
  | INDX => M_indx
  | INDY => if page then M_indy_read else M_indy
  | IMP | REL => M_abort
  end.

(* the state after the opcode fetch *)
Definition fetched (n : Z) (s : asap) : asap := add_cycles n (skip 1 s).

Lemma ld_byte s a : cpu_ok s -> 0 <= ld (m_memory s) a < 256.
Proof. intros H. exact (ok_mem _ H a). Qed.

Lemma asap_ext s t :
  rest s = rest t -> m_memory s = m_memory t -> m_cycle s = m_cycle t -> m_pc s = m_pc t -> m_a s = m_a t -> m_x s = m_x t ->
  m_y s = m_y t -> m_s s = m_s t -> m_nz s = m_nz t -> m_c s = m_c t -> m_vdi s = m_vdi t -> s = t.
Proof.
  destruct s, t. unfold rest. cbn. intros R. injection R. intros. subst. reflexivity.
Qed.

Lemma operand_eq addr addr' s s' : addr = addr' -> s = s' -> Ok (Operand addr s) = Ok (Operand addr' s').
Proof. now intros -> ->. Qed.


Definition addressed (am : amode) (page : bool) (n : Z) (s : asap) : asap :=
  set_m_pc (m_pc s + ilen am) (set_m_cycle (m_cycle s + n + (if page && crosses am (view s) then 1 else 0)) s).

Lemma w16_id v : 0 <= v < 65536 -> w16 v = v.
Proof. intros. unfold w16. rewrite Z.mod_small; lia. Qed.

Ltac proj := cbn [m_memory m_cycle m_pc m_a m_x m_y m_s m_nz m_c m_vdi skip add_cycles fetched set_m_pc set_m_cycle set_m_a set_m_x set_m_y
  set_m_s set_m_nz set_m_c set_m_vdi set_m_memory load_a load_x load_y A X Y SP PC fN fV fD fI fZ fC M view bind done].

Lemma mode_ok am page n s :
  cpu_ok s -> 0 <= m_pc s -> m_pc s + ilen am <= 65536 ->
  mode_of am page <> M_abort -> (page = true -> match am with ABSX | ABSY | INDY => True | _ => False end) ->
  run_mode (mode_of am page) (fetched n s) = Ok (Operand (ea am (view s)) (addressed am page n s)).
Proof.
  intros H Hpc Hlen Hm Hp.
  assert (B : forall a, 0 <= ld (m_memory s) a < 256) by (intros; now apply ld_byte).
  pose proof (ok_x _ H) as Hx. pose proof (ok_y _ H) as Hy. unfold byte in Hx, Hy.
  assert (E0 : m_pc s mod 65536 = m_pc s) by (destruct am; cbn [ilen] in Hlen; rewrite Z.mod_small; lia).
  destruct am; cbn [mode_of ilen] in *; try (exfalso; apply Hm; reflexivity);
    destruct page; try (exfalso; exact (Hp eq_refl)); unfold run_mode, abs_indexed, fetch_word, zp_word; clear Hm Hp;
    rewrite ?fetch_ok by (proj; lia); proj.
  all: rewrite ?mem_rd_ok by (pose proof (B (m_pc s + 1)); proj; arith; lia); proj.
  all: repeat match goal with |- context [if ?b then add_cycles 1 ?s else ?s] =>
         replace (if b then add_cycles 1 s else s) with (add_cycles (if b then 1 else 0) s)
           by (destruct b; [reflexivity|apply asap_ext; proj; try reflexivity; lia]) end.
  all: rewrite ?fetch_ok by (proj; lia); proj;
    rewrite ?mem_rd_ok by (pose proof (B (m_pc s + 1)); proj; arith; lia); proj;
    rewrite ?mem_rd_ok by (pose proof (B (m_pc s + 1)); proj; arith; lia); proj.
  all: unfold addressed, ea, crosses, mw, arg8, arg16, w8; proj; rewrite ?E0;
    rewrite ?(w16_id (m_pc s + 1)), ?(w16_id (m_pc s + 2)) by lia.
  all: apply operand_eq; [|apply asap_ext; proj; try reflexivity; cbn [ilen andb negb]; try lia].
  all: pose proof (B (m_pc s + 1)); pose proof (B (m_pc s + 2));
    pose proof (B (ld (m_memory s) (m_pc s + 1))); pose proof (B ((ld (m_memory s) (m_pc s + 1) + 1) mod 256)).
  all: rewrite <- ?Z.add_assoc; cbn [Z.add Pos.add Pos.succ]; arith; unfold w16; try reflexivity; try lia.
  all: unfold mw; proj; try lia.
  all: do 2 f_equal; match goal with |- (if ?a then _ else _) = (if negb ?b then _ else _) => destruct a eqn:Ea, b eqn:Eb end;
    cbn [negb]; lia.
Qed.

(* ---- operations ---- *)
Lemma view_nz v s : byte v -> view (set_m_nz v s) = wNZ v (view s).
Proof.
  intros H. unfold byte in H. unfold view, wNZ, wZ, wN. proj. f_equal. now rewrite Z.mod_small by lia.
Qed.
Lemma view_a v s : view (set_m_a v s) = wA v (view s). Proof. reflexivity. Qed.
Lemma view_x v s : view (set_m_x v s) = wX v (view s). Proof. reflexivity. Qed.
Lemma view_y v s : view (set_m_y v s) = wY v (view s). Proof. reflexivity. Qed.
Lemma view_s v s : view (set_m_s v s) = wSP v (view s). Proof. reflexivity. Qed.
Lemma view_c v s : view (set_m_c v s) = wC (v =? 1) (view s). Proof. reflexivity. Qed.
Lemma view_m v s : view (set_m_memory v s) = wM v (view s). Proof. reflexivity. Qed.
Lemma view_pc v s : view (set_m_pc v s) = wPC (v mod 65536) (view s). Proof. reflexivity. Qed.


Lemma sweep_at m f (d : bool) a v k :
  sweep m f = true -> byte a -> byte v -> 0 <= k < 2 -> agree (m d a v k) (f d a v k) = true.
Proof.
  intros H Ha Hv Hk. unfold sweep in H. cbv zeta in H.
  assert (Hd : In d [false; true]) by (destruct d; cbn; auto).
  assert (Hk' : In k [0; 1]) by (assert (k = 0 \/ k = 1) as [-> | ->] by lia; cbn; auto).
  eapply forallb_forall in H; [|exact Hd]. cbn beta in H.
  eapply forallb_forall in H; [|exact Hk']. cbn beta in H.
  eapply forallb_forall in H; [|apply (zrange_In 256 a); unfold byte in Ha; lia]. cbn beta in H.
  eapply forallb_forall in H; [|apply (zrange_In 256 v); unfold byte in Hv; lia]. exact H.
Qed.

Lemma vdi_d s : Z.land (m_vdi s) 76 = m_vdi s -> (Z.land (m_vdi s) 8 =? 0) = negb (Z.testbit (m_vdi s) 3).
Proof.
  intros H. apply eqb_prop. revert H. generalize (m_vdi s).
  apply vdi_sweep. vm_compute. reflexivity.
Qed.

(* what a new overflow flag does to the other flags *)
Lemma vdi_overflow v o : Z.land v 76 = v -> o = 0 \/ o = 64 ->
  Z.land (Z.land v 12 + o) 76 = Z.land v 12 + o /\
  Z.testbit (Z.land v 12 + o) 6 = (o =? 64) /\ Z.testbit (Z.land v 12 + o) 3 = Z.testbit v 3 /\
  Z.testbit (Z.land v 12 + o) 2 = Z.testbit v 2.
Proof.
  intros H Ho.
  set (p v := forallb (fun o => (Z.land (Z.land v 12 + o) 76 =? Z.land v 12 + o) && Bool.eqb (Z.testbit (Z.land v 12 + o) 6) (o =? 64)
                        && Bool.eqb (Z.testbit (Z.land v 12 + o) 3) (Z.testbit v 3)
                        && Bool.eqb (Z.testbit (Z.land v 12 + o) 2) (Z.testbit v 2)) [0; 64]).
  assert (P : p v = true) by (apply vdi_sweep; [vm_compute; reflexivity|exact H]).
  unfold p in P. cbn [forallb] in P. rewrite !andb_true_iff in P. destruct P as ((((A0 & A1) & A2) & A3) & (((B0 & B1) & B2) & B3) & _).
  destruct Ho; subst o; repeat split; (now apply Z.eqb_eq) || (now apply eqb_prop).
Qed.

Lemma view_nz' v s : view (set_m_nz v s) = wZ (v mod 256 =? 0) (wN (128 <=? v) (view s)). Proof. reflexivity. Qed.
Lemma view_vdi v s : view (set_m_vdi v s) = wI (Z.testbit v 2) (wD (Z.testbit v 3) (wV (Z.testbit v 6) (view s))).
Proof. reflexivity. Qed.
Lemma view_overflow o s : Z.land (m_vdi s) 76 = m_vdi s -> o = 0 \/ o = 64 ->
  view (set_m_vdi (Z.land (m_vdi s) 12 + o) s) = wV (o =? 64) (view s).
Proof.
  intros H Ho. destruct (vdi_overflow _ o H Ho) as (V0 & V1 & V2 & V3).
  rewrite view_vdi, V1, V2, V3. reflexivity.
Qed.

(* ADC and SBC: the value of v, the state it produces *)
Lemma view_adc v s : cpu_ok s -> byte v -> view (add_with_carry v s) = adc v (view s) /\ cpu_ok (add_with_carry v s) /\
  rest (add_with_carry v s) = rest s /\ m_cycle (add_with_carry v s) = m_cycle s /\ m_pc (add_with_carry v s) = m_pc s.
Proof.
  intros H Hv. pose proof (sweep_at _ _ (Z.testbit (m_vdi s) 3) (m_a s) v (m_c s) adc_sweep (ok_a _ H) Hv (ok_c _ H)) as S.
  pose proof (ok_vdi _ H) as Hvdi.
  assert (E : add_with_carry v s =
    let '(a, nz, c, o) := adc_m (Z.testbit (m_vdi s) 3) (m_a s) v (m_c s) in
    set_m_a a (set_m_c c (set_m_vdi (Z.land (m_vdi s) 12 + o) (set_m_nz nz s)))).
  { unfold add_with_carry, adc_m. cbv zeta. rewrite (vdi_d s Hvdi). destruct (negb (Z.testbit (m_vdi s) 3)); [reflexivity|].
    match goal with |- context [if 160 <=? ?t then _ else _] => destruct (160 <=? t) end; reflexivity. }
  rewrite E. destruct (adc_m _ _ _ _) as (((a, nz), c), o).
  assert (F : adc v (view s) = let '(a, n, z, c, o) := adc_s (Z.testbit (m_vdi s) 3) (m_a s) v (m_c s) in
    wA a (wZ z (wN n (wC c (wV o (view s)))))).
  { unfold adc_s, adc, wNZ. cbv zeta. proj. destruct (Z.testbit (m_vdi s) 3); reflexivity. }
  rewrite F. destruct (adc_s _ _ _ _) as ((((a', n), z), c'), o').
  unfold agree in S. rewrite !andb_true_iff in S. destruct S as ((((((((((S1 & S2) & S3) & S4) & S5) & S6) & S7) & S8) & S9) & S10) & S11).
  assert (Ho : o = 0 \/ o = 64) by lia.
  destruct (vdi_overflow _ o Hvdi Ho) as (V0 & V1 & V2 & V3).
  apply eqb_prop in S2, S3, S4, S5. apply Z.eqb_eq in S1.
  assert (VW : view (set_m_a a (set_m_c c (set_m_vdi (Z.land (m_vdi s) 12 + o) (set_m_nz nz s)))) =
    wA a (wC (c =? 1) (wV (o =? 64) (wZ (nz mod 256 =? 0) (wN (128 <=? nz) (view s)))))).
  { rewrite view_a, view_c. pose proof (view_overflow o (set_m_nz nz s) Hvdi Ho) as VO. change (m_vdi (set_m_nz nz s)) with (m_vdi s) in VO.
    rewrite VO, view_nz'. reflexivity. }
  split; [|split; [|repeat split]].
  - rewrite VW. subst a' n z c' o'. generalize (view s). intros []. reflexivity.
  - destruct H. constructor; proj; unfold byte in *; try assumption; lia.
Qed.

Lemma view_sbc v s : cpu_ok s -> byte v -> view (subtract_with_carry v s) = sbc v (view s) /\ cpu_ok (subtract_with_carry v s) /\
  rest (subtract_with_carry v s) = rest s /\ m_cycle (subtract_with_carry v s) = m_cycle s /\ m_pc (subtract_with_carry v s) = m_pc s.
Proof.
  intros H Hv. pose proof (sweep_at _ _ (Z.testbit (m_vdi s) 3) (m_a s) v (m_c s) sbc_sweep (ok_a _ H) Hv (ok_c _ H)) as S.
  pose proof (ok_vdi _ H) as Hvdi.
  assert (E : subtract_with_carry v s =
    let '(a, nz, c, o) := sbc_m (Z.testbit (m_vdi s) 3) (m_a s) v (m_c s) in
    set_m_a a (set_m_nz nz (set_m_c c (set_m_vdi (Z.land (m_vdi s) 12 + o) s)))).
  { unfold subtract_with_carry, sbc_m. cbv zeta. rewrite (vdi_d s Hvdi). destruct (negb (Z.testbit (m_vdi s) 3)); reflexivity. }
  rewrite E. destruct (sbc_m _ _ _ _) as (((a, nz), c), o).
  assert (F : sbc v (view s) = let '(a, n, z, c, o) := sbc_s (Z.testbit (m_vdi s) 3) (m_a s) v (m_c s) in
    wA a (wZ z (wN n (wC c (wV o (view s)))))).
  { unfold sbc_s, sbc, wNZ. cbv zeta. proj. destruct (Z.testbit (m_vdi s) 3); reflexivity. }
  rewrite F. destruct (sbc_s _ _ _ _) as ((((a', n), z), c'), o').
  unfold agree in S. rewrite !andb_true_iff in S. destruct S as ((((((((((S1 & S2) & S3) & S4) & S5) & S6) & S7) & S8) & S9) & S10) & S11).
  assert (Ho : o = 0 \/ o = 64) by lia.
  destruct (vdi_overflow _ o Hvdi Ho) as (V0 & V1 & V2 & V3).
  apply eqb_prop in S2, S3, S4, S5. apply Z.eqb_eq in S1.
  assert (VW : view (set_m_a a (set_m_nz nz (set_m_c c (set_m_vdi (Z.land (m_vdi s) 12 + o) s)))) =
    wA a (wZ (nz mod 256 =? 0) (wN (128 <=? nz) (wC (c =? 1) (wV (o =? 64) (view s)))))).
  { rewrite view_a, view_nz', view_c, (view_overflow o s Hvdi Ho). reflexivity. }
  split; [|split; [|repeat split]].
  - rewrite VW. subst a' n z c' o'. generalize (view s). intros []. reflexivity.
  - destruct H. constructor; proj; unfold byte in *; try assumption; lia.
Qed.

Definition op_of (m : mnemonic) : option operation :=
  match m with
  | ADC => Some O_adc | AND => Some O_and | ASL => Some O_asl | BIT => Some O_bit | CMP => Some O_cmp | CPX => Some O_cpx
  | CPY => Some O_cpy | DEC => Some O_dec | EOR => Some O_eor | INC => Some O_inc | LDA => Some O_lda | LDX => Some O_ldx
  | LDY => Some O_ldy | LSR => Some O_lsr | ORA => Some O_ora | ROL => Some O_rol | ROR => Some O_ror
  | SBC => Some O_sbc | STA => Some O_sta | STX => Some O_stx | STY => Some O_sty
  | _ => None
  end.

Definition performs (o : outcome asap) (s : asap) (c : cpu) : Prop :=
  exists s', o = Ok s' /\ view s' = c /\ rest s' = rest s /\ m_cycle s' = m_cycle s.

Lemma performs_ok s' s c : view s' = c -> rest s' = rest s -> m_cycle s' = m_cycle s -> performs (Ok s') s c.
Proof. intros. exists s'. auto. Qed.

Lemma c_eq1 s : cpu_ok s -> m_c s = b2z (m_c s =? 1).
Proof. intros H. pose proof (ok_c _ H). unfold b2z. destruct (m_c s =? 1) eqn:E; lia. Qed.

Lemma carry7 v : byte v -> (v / 128 =? 1) = (128 <=? v).
Proof. unfold byte. intros. destruct (128 <=? v) eqn:E; lia. Qed.

Lemma u8_mod v : u8 (v mod 256) = v mod 256.
Proof. apply u8_byte. unfold byte. lia. Qed.

Lemma bit_nz a v : byte a -> byte v -> 
  let nz := Z.shiftl (Z.land v 128) 1 + Z.land v a in (128 <=? nz) = (128 <=? v) /\ (nz mod 256 =? 0) = (Z.land a v =? 0) /\
  Z.land v 64 = (if Z.testbit v 6 then 64 else 0) /\ 0 <= nz < 512.
Proof.
  intros Ha Hv nz. subst nz.
  assert (L : Z.land v 128 = if 128 <=? v then 128 else 0).
  { apply Z.eqb_eq. revert v Hv. apply byte_sweep. vm_compute. reflexivity. }
  assert (K : Z.land v 64 = if Z.testbit v 6 then 64 else 0).
  { apply Z.eqb_eq. revert v Hv L. intros v Hv _. revert v Hv. apply byte_sweep. vm_compute. reflexivity. }
  pose proof (byte_land v a Hv) as B. unfold byte in B.
  assert (U : Z.land v a <= v).
  { clear - Hv Ha. unfold byte in *.
    assert (T : (Z.land v a + Z.ldiff v a = v)).
    { rewrite Z.add_nocarry_lxor.
      - apply Z.bits_inj'. intros n Hn. rewrite Z.lxor_spec, Z.land_spec, Z.ldiff_spec.
        destruct (Z.testbit v n), (Z.testbit a n); reflexivity.
      - apply Z.bits_inj'. intros n Hn. rewrite !Z.land_spec, Z.ldiff_spec, Z.bits_0.
        destruct (Z.testbit v n), (Z.testbit a n); reflexivity. }
    assert (0 <= Z.ldiff v a) by (apply Z.ldiff_nonneg; lia). lia. }
  rewrite (Z.land_comm a v), shl1, L, K. unfold byte in *.
  repeat split; destruct (128 <=? v) eqn:E; try lia.
Qed.

Lemma op_ok mn o addr c0 s :
  op_of mn = Some o -> cpu_ok s -> 0 <= addr < 65536 -> hardware addr = false ->
  performs (run_operation o addr s) s (perform mn addr c0 (view s)).
Proof.
  intros Ho H Ha Hh. pose proof (ok_mem _ H addr) as Bv. change (0 <= ld (m_memory s) addr < 256) with (byte (ld (m_memory s) addr)) in Bv.
  assert (Bm : forall v, byte (v mod 256)) by (unfold byte; lia).
  assert (Em : M (view s) = m_memory s) by reflexivity.
  pose proof H as [Oa Ox Oy Os On Oc Ov Om].
  destruct mn; cbn [op_of] in Ho; try discriminate Ho; injection Ho as <-; cbn [run_operation]; unfold perform;
    rewrite ?Em;
    unfold arithmetic_shift_left, rotate_left, logical_shift_right, rotate_right, decrement, increment;
    rewrite ?cpu_peek_ok, ?peek_rmw_ok by assumption; cbn [bind]; rewrite ?cpu_poke_ok by assumption; cbn [bind];
    set (v := ld (m_memory s) addr) in *.
  - (* ADC *) destruct (view_adc v s H Bv) as (V1 & V2 & V3 & V4 & V5). now apply performs_ok.
  - (* AND *) apply performs_ok; [|reflexivity..]. unfold load_a. rewrite view_nz, view_a by now apply byte_land. reflexivity.
  - (* ASL *)
    arith. rewrite u8_mod. apply performs_ok; [|reflexivity..]. rewrite view_nz, view_m, view_c by apply Bm.
    unfold mem_shift, asl, w8. rewrite Em. fold v. rewrite carry7 by assumption. rewrite (Z.mul_comm 2 v). reflexivity.
  - (* BIT *)
    apply performs_ok; [|reflexivity..]. destruct (bit_nz (m_a s) v Oa Bv) as (B1 & B2 & B3 & B4). cbv zeta in B1, B2.
    rewrite view_nz', B1, B2, B3, view_overflow by (assumption || (destruct (Z.testbit v 6); auto)).
    destruct (Z.testbit v 6); reflexivity.
  - (* CMP *) apply performs_ok; [|reflexivity..]. unfold compare, cmp, w8. rewrite view_nz by (arith; apply Bm).
    rewrite view_c. arith. f_equal. f_equal. change (A (view s)) with (m_a s). destruct (v <=? m_a s); reflexivity.
  - (* CPX *) apply performs_ok; [|reflexivity..]. unfold compare, cmp, w8. rewrite view_nz by (arith; apply Bm).
    rewrite view_c. arith. f_equal. f_equal. change (X (view s)) with (m_x s). destruct (v <=? m_x s); reflexivity.
  - (* CPY *) apply performs_ok; [|reflexivity..]. unfold compare, cmp, w8. rewrite view_nz by (arith; apply Bm).
    rewrite view_c. arith. f_equal. f_equal. change (Y (view s)) with (m_y s). destruct (v <=? m_y s); reflexivity.
  - (* DEC *)
    arith. rewrite u8_mod. apply performs_ok; [|reflexivity..]. rewrite view_nz, view_m by apply Bm. reflexivity.
  - (* EOR *) apply performs_ok; [|reflexivity..]. unfold load_a. rewrite view_nz, view_a by now apply byte_lxor. reflexivity.
  - (* INC *)
    arith. rewrite u8_mod. apply performs_ok; [|reflexivity..]. rewrite view_nz, view_m by apply Bm. reflexivity.
  - (* LDA *) apply performs_ok; [|reflexivity..]. unfold load_a. rewrite view_nz, view_a by assumption. reflexivity.
  - (* LDX *) apply performs_ok; [|reflexivity..]. unfold load_x. rewrite view_nz, view_x by assumption. reflexivity.
  - (* LDY *) apply performs_ok; [|reflexivity..]. unfold load_y. rewrite view_nz, view_y by assumption. reflexivity.
  - (* LSR *)
    arith. assert (Bh : byte (v / 2)) by (unfold byte in *; lia). rewrite u8_byte by exact Bh.
    apply performs_ok; [|reflexivity..]. rewrite view_nz, view_m, view_c by exact Bh. reflexivity.
  - (* ORA *) apply performs_ok; [|reflexivity..]. unfold load_a. rewrite view_nz, view_a by now apply byte_lor. reflexivity.
  - (* ROL *)
    arith. rewrite u8_mod. apply performs_ok; [|reflexivity..]. rewrite view_nz, view_m, view_c by apply Bm.
    unfold mem_shift, rol, w8. rewrite Em. fold v. change (fC (view s)) with (m_c s =? 1). rewrite <- c_eq1 by assumption.
    rewrite (Z.mul_comm 2 v). replace ((v * 2 + m_c s) / 256 =? 1) with (128 <=? v); [reflexivity|].
    unfold byte in *. destruct (128 <=? v) eqn:E; lia.
  - (* ROR *)
    arith. assert (Bh : byte ((m_c s * 256 + v) / 2)) by (unfold byte in *; lia). rewrite u8_byte by exact Bh.
    apply performs_ok; [|reflexivity..]. rewrite view_nz, view_m, view_c by exact Bh.
    unfold mem_shift, ror. rewrite Em. fold v. change (fC (view s)) with (m_c s =? 1). rewrite <- c_eq1 by assumption.
    replace ((m_c s * 256 + v) / 2) with (v / 2 + 128 * m_c s) by lia.
    replace ((m_c s * 256 + v) mod 2) with (v mod 2) by lia. reflexivity.
  - (* SBC *) destruct (view_sbc v s H Bv) as (V1 & V2 & V3 & V4 & V5). now apply performs_ok.
  - (* STA *) rewrite u8_byte by assumption. apply performs_ok; reflexivity.
  - (* STX *) rewrite u8_byte by assumption. apply performs_ok; reflexivity.
  - (* STY *) rewrite u8_byte by assumption. apply performs_ok; reflexivity.
Qed.

(* ---- the stack ---- *)
Lemma push_ok v s : cpu_ok s ->
  push v s = Ok (set_m_s ((m_s s - 1) mod 256) (set_m_memory (st (m_memory s) (256 + m_s s) (u8 v)) s)).
Proof.
  intros H. pose proof (ok_s _ H) as Hs. unfold byte in Hs. unfold push. rewrite mem_wr_ok by lia. cbn [bind].
  now rewrite land_255.
Qed.

Lemma u8_is_byte v : byte (u8 v).
Proof. unfold byte, u8. lia. Qed.

Lemma push_cpu_ok v s s' : cpu_ok s -> push v s = Ok s' -> cpu_ok s'.
Proof.
  intros H E. rewrite push_ok in E by assumption. injection E as <-.
  destruct H. constructor; proj; try assumption; [unfold byte; lia|]. apply byte_mem_st; [assumption|apply u8_is_byte].
Qed.

Definition same_but_stack (s s' : asap) : Prop :=
  rest s' = rest s /\ m_cycle s' = m_cycle s /\ m_pc s' = m_pc s /\ m_a s' = m_a s /\ m_x s' = m_x s /\ m_y s' = m_y s /\
  m_nz s' = m_nz s /\ m_c s' = m_c s /\ m_vdi s' = m_vdi s.

Lemma push_view v s : cpu_ok s -> exists s', push v s = Ok s' /\ view s' = push_byte (u8 v) (view s) /\ cpu_ok s' /\ same_but_stack s s'.
Proof.
  intros H. eexists. split; [now apply push_ok|]. split; [|split].
  - reflexivity.
  - eapply push_cpu_ok; [exact H|]. now apply push_ok.
  - repeat split.
Qed.

Lemma same_but_stack_trans s s1 s2 : same_but_stack s s1 -> same_but_stack s1 s2 -> same_but_stack s s2.
Proof. unfold same_but_stack. intuition congruence. Qed.

Lemma push_pc_view s : cpu_ok s ->
  exists s', push_pc s = Ok s' /\ view s' = push_word (PC (view s)) (view s) /\ cpu_ok s' /\ same_but_stack s s'.
Proof.
  intros H. unfold push_pc.
  destruct (push_view (Z.shiftr (m_pc s) 8) s H) as (s1 & E1 & V1 & H1 & S1). rewrite E1. cbn [bind].
  destruct (push_view (Z.land (m_pc s1) 255) s1 H1) as (s2 & E2 & V2 & H2 & S2). exists s2. rewrite E2.
  split; [reflexivity|]. split; [|split; [exact H2|now apply same_but_stack_trans with s1]].
  rewrite V2, V1. unfold push_word. arith. replace (m_pc s1) with (m_pc s) by (symmetry; apply S1).
  replace (PC (view s)) with (m_pc s mod 65536) by reflexivity. unfold u8, w8. f_equal; [lia|]. f_equal. lia.
Qed.

Lemma nz_n v : 0 <= v < 512 -> Z.land (Z.lor v (Z.shiftr v 1)) 128 = 128 * b2z (128 <=? v).
Proof. intros H. apply Z.eqb_eq. revert v H. apply nz_sweep. vm_compute. reflexivity. Qed.
Lemma vdi_bits v : Z.land v 76 = v -> v = 64 * b2z (Z.testbit v 6) + 8 * b2z (Z.testbit v 3) + 4 * b2z (Z.testbit v 2).
Proof. intros H. apply Z.eqb_eq. revert v H. apply vdi_sweep. vm_compute. reflexivity. Qed.
Lemma b2z_range b : 0 <= b2z b <= 1. Proof. destruct b; cbn; lia. Qed.

Lemma push_flags_view (brk : bool) s : cpu_ok s ->
  exists s', push_flags (if brk then 48 else 32) s = Ok s' /\ view s' = push_byte (status brk (view s)) (view s) /\ cpu_ok s' /\ same_but_stack s s'.
Proof.
  intros H. unfold push_flags. rewrite land_255.
  match goal with |- context [push ?v s] => destruct (push_view v s H) as (s1 & E1 & V1 & H1 & S1); rewrite E1 end.
  exists s1. split; [reflexivity|]. split; [|now split]. rewrite V1. f_equal.
  rewrite nz_n by apply H. pose proof (vdi_bits _ (ok_vdi _ H)) as V. pose proof (c_eq1 _ H) as C.
  unfold status, view. proj.
  pose proof (b2z_range (128 <=? m_nz s)). pose proof (b2z_range (Z.testbit (m_vdi s) 6)). pose proof (b2z_range (Z.testbit (m_vdi s) 3)).
  pose proof (b2z_range (Z.testbit (m_vdi s) 2)). pose proof (b2z_range (m_c s =? 1)).
  unfold u8. destruct (m_nz s mod 256 =? 0), brk; cbn [b2z]; rewrite Z.mod_small; lia.
Qed.

Lemma pull_ok s : cpu_ok s ->
  pull s = Ok (ld (m_memory s) (256 + (m_s s + 1) mod 256), set_m_s ((m_s s + 1) mod 256) s).
Proof.
  intros H. unfold pull. arith. rewrite mem_rd_ok by lia. reflexivity.
Qed.
Lemma pull_view s : cpu_ok s -> exists v s', pull s = Ok (v, s') /\ pull_byte (view s) = (v, view s') /\ byte v /\ cpu_ok s' /\ same_but_stack s s'.
Proof.
  intros H. do 2 eexists. split; [now apply pull_ok|]. split; [reflexivity|]. split; [apply ld_byte; exact H|].
  split; [|repeat split]. destruct H. constructor; proj; try assumption. unfold byte. lia.
Qed.

Lemma pulled_flags v : byte v ->
  let nz := Z.shiftl (Z.land v 128) 1 + Z.land (Z.lnot v) 2 in
  (128 <=? nz) = Z.testbit v 7 /\ (nz mod 256 =? 0) = Z.testbit v 1 /\ 0 <= nz < 512 /\
  Z.testbit (Z.land v 76) 6 = Z.testbit v 6 /\ Z.testbit (Z.land v 76) 3 = Z.testbit v 3 /\ Z.testbit (Z.land v 76) 2 = Z.testbit v 2 /\
  (Z.land v 1 =? 1) = Z.testbit v 0 /\ 0 <= Z.land v 1 < 2 /\ Z.land (Z.land v 76) 76 = Z.land v 76.
Proof.
  intros Hv.
  set (p v := let nz := Z.shiftl (Z.land v 128) 1 + Z.land (Z.lnot v) 2 in
    Bool.eqb (128 <=? nz) (Z.testbit v 7) && Bool.eqb (nz mod 256 =? 0) (Z.testbit v 1) && (0 <=? nz) && (nz <? 512) &&
    Bool.eqb (Z.testbit (Z.land v 76) 6) (Z.testbit v 6) && Bool.eqb (Z.testbit (Z.land v 76) 3) (Z.testbit v 3) &&
    Bool.eqb (Z.testbit (Z.land v 76) 2) (Z.testbit v 2) && Bool.eqb (Z.land v 1 =? 1) (Z.testbit v 0) &&
    (0 <=? Z.land v 1) && (Z.land v 1 <? 2) && (Z.land (Z.land v 76) 76 =? Z.land v 76)).
  assert (P : p v = true) by (apply byte_sweep; [vm_compute; reflexivity|exact Hv]).
  unfold p in P. cbv zeta in P. rewrite !andb_true_iff, !eqb_true_iff in P. cbv zeta.
  destruct P as ((((((((((P1 & P2) & P3) & P4) & P5) & P6) & P7) & P8) & P9) & P10) & P11).
  repeat split; try assumption; lia.
Qed.

Lemma pull_flags_view s : cpu_ok s ->
  exists s', pull_flags s = Ok s' /\ view s' = (let '(v, c) := pull_byte (view s) in set_status v c) /\ cpu_ok s' /\
    rest s' = rest s /\ m_cycle s' = m_cycle s /\ m_pc s' = m_pc s.
Proof.
  intros H. unfold pull_flags. destruct (pull_view s H) as (v & s1 & E1 & V1 & B1 & H1 & S1). rewrite E1. cbn [bind]. rewrite V1.
  destruct (pulled_flags v B1) as (P1 & P2 & P3 & P4 & P5 & P6 & P7 & P8 & P9). cbv zeta in *.
  eexists. split; [reflexivity|]. split; [|split].
  - rewrite view_vdi, view_c, view_nz', P1, P2, P4, P5, P6, P7. generalize (view s1). intros []. reflexivity.
  - destruct H1. constructor; proj; assumption.
  - repeat split; apply S1.
Qed.

Lemma no_irq s : is_irq s = false -> check_irq s = Ok s.
Proof. intros H. unfold check_irq. rewrite H, andb_false_r. reflexivity. Qed.

Lemma rest_irq s s' : rest s' = rest s -> is_irq s' = is_irq s.
Proof. unfold rest, is_irq. intros H. injection H. intros. congruence. Qed.

Lemma vdi_set_i s : Z.land (m_vdi s) 76 = m_vdi s -> view (set_m_vdi (Z.lor (m_vdi s) 4) s) = wI true (view s) /\
  Z.land (Z.lor (m_vdi s) 4) 76 = Z.lor (m_vdi s) 4.
Proof.
  intros H. rewrite view_vdi, Z.land_lor_distr_l, H. rewrite !Z.lor_spec.
  change (Z.testbit 4 2) with true. change (Z.testbit 4 3) with false. change (Z.testbit 4 6) with false.
  rewrite !orb_false_r, orb_true_r. split; reflexivity.
Qed.

Lemma execute_irq_view (brk : bool) s : cpu_ok s ->
  exists s', execute_irq (if brk then 48 else 32) s = Ok s' /\ view s' = interrupt brk (view s) /\ cpu_ok s' /\
    rest s' = rest s /\ m_cycle s' = m_cycle s.
Proof.
  intros H. unfold execute_irq.
  destruct (push_pc_view s H) as (s1 & E1 & V1 & H1 & S1). rewrite E1. cbn [bind].
  destruct (push_flags_view brk s1 H1) as (s2 & E2 & V2 & H2 & S2). rewrite E2. cbn [bind].
  rewrite !mem_rd_ok by lia. cbn [bind]. eexists. split; [reflexivity|].
  destruct (vdi_set_i s2 (ok_vdi _ H2)) as [V3 V4].
  pose proof (ld_byte s2 65534 H2). pose proof (ld_byte s2 65535 H2).
  split; [|split; [|split]].
  - rewrite view_pc, V3. proj. arith. unfold interrupt. rewrite <- V1, <- V2. rewrite Z.mod_small by lia.
    unfold mw. proj. rewrite (Z.mul_comm 256). reflexivity.
  - destruct H2. constructor; proj; try assumption.
  - proj. transitivity (rest s2); [reflexivity|]. destruct S2 as (-> & _). apply S1.
  - proj. destruct S2 as (_ & -> & _). apply S1.
Qed.

(* ---- instructions without a memory operand ---- *)
Definition imp_of (m : mnemonic) : option mode :=
  match m with
  | ASLA => Some M_asl_a | LSRA => Some M_lsr_a | ROLA => Some M_rol_a | RORA => Some M_ror_a
  | CLC => Some M_clc | CLD => Some M_cld | CLI => Some M_cli | CLV => Some M_clv | SEC => Some M_sec | SED => Some M_sed | SEI => Some M_sei
  | DEX => Some M_dex | DEY => Some M_dey | INX => Some M_inx | INY => Some M_iny | NOP => Some M_nop
  | TAX => Some M_tax | TAY => Some M_tay | TSX => Some M_tsx | TXA => Some M_txa | TXS => Some M_txs | TYA => Some M_tya
  | PHA => Some M_pha | PHP => Some M_php | PLA => Some M_pla | PLP => Some M_plp | RTI => Some M_rti | RTS => Some M_rts | BRK => Some M_brk
  | JMP => Some M_jmp | JSR => Some M_jsr
  | _ => None
  end.
Definition branch_of (m : mnemonic) : option mode :=
  match m with
  | BPL => Some M_bpl | BMI => Some M_bmi | BVC => Some M_bvc | BVS => Some M_bvs
  | BCC => Some M_bcc | BCS => Some M_bcs | BNE => Some M_bne | BEQ => Some M_beq
  | _ => None
  end.

Lemma vdi_i s : Z.land (m_vdi s) 76 = m_vdi s -> (Z.land (m_vdi s) 4 =? 0) = negb (fI (view s)).
Proof.
  intros H. change (fI (view s)) with (Z.testbit (m_vdi s) 2). revert H. generalize (m_vdi s). intros v H. apply eqb_prop. revert v H.
  apply vdi_sweep. vm_compute. reflexivity.
Qed.

(* the poll after CLI, PLP and RTI *)
Lemma check_irq_view mn s s0 : polls mn = true -> cpu_ok s -> is_irq s = is_irq s0 -> exists s', check_irq s = Ok s' /\
  view s' = (if poll mn (is_irq s0) (view s) then interrupt false (view s) else view s) /\ rest s' = rest s /\
  m_cycle s' = m_cycle s + (if poll mn (is_irq s0) (view s) then 7 else 0).
Proof.
  intros P H <-. unfold check_irq, poll. rewrite P, vdi_i by apply H. cbn [andb]. rewrite (andb_comm (negb _)).
  destruct (is_irq s && negb (fI (view s))).
  - assert (H' : cpu_ok (set_m_cycle (m_cycle s + 7) s)) by (destruct H; constructor; assumption).
    destruct (execute_irq_view false _ H') as (s1 & E1 & V1 & H1 & R1 & C1). exists s1. split; [exact E1|].
    split; [exact V1|]. split; [exact R1|]. exact C1.
  - exists s. split; [reflexivity|]. repeat split. lia.
Qed.

Definition completes (o : outcome first_result) (s : asap) (c : cpu) (cycles : Z) : Prop :=
  exists s', o = Ok (Done s') /\ view s' = c /\ rest s' = rest s /\ m_cycle s' = cycles.

Lemma completes_done s' s c n : view s' = c -> rest s' = rest s -> m_cycle s' = n -> completes (done s') s c n.
Proof. intros. exists s'. auto. Qed.

Lemma cpu_ok_fetched n s : cpu_ok s -> cpu_ok (fetched n s).
Proof. intros []. constructor; assumption. Qed.
Lemma cpu_ok_skip n s : cpu_ok s -> cpu_ok (skip n s).
Proof. intros []. constructor; assumption. Qed.
Lemma cpu_ok_pc n s : cpu_ok s -> cpu_ok (set_m_pc n s).
Proof. intros []. constructor; assumption. Qed.

Lemma view_fetched n s : 0 <= m_pc s -> view (fetched n s) = wPC (w16 (PC (view s) + 1)) (view s).
Proof. intros H. unfold view, wPC, w16. proj. f_equal. lia. Qed.

Lemma vdi_clear s : Z.land (m_vdi s) 76 = m_vdi s ->
  view (set_m_vdi (Z.land (m_vdi s) 72) s) = wI false (view s) /\
  view (set_m_vdi (Z.land (m_vdi s) 12) s) = wV false (view s) /\
  view (set_m_vdi (Z.land (m_vdi s) 68) s) = wD false (view s) /\
  view (set_m_vdi (Z.lor (m_vdi s) 8) s) = wD true (view s).
Proof.
  intros H. rewrite !view_vdi. rewrite !Z.land_spec, !Z.lor_spec.
  repeat match goal with |- context [Z.testbit (Zpos ?p) ?n] => let b := eval vm_compute in (Z.testbit (Zpos p) n) in change (Z.testbit (Zpos p) n) with b end.
  rewrite !andb_true_r, !andb_false_r, !orb_false_r, !orb_true_r. repeat split.
Qed.

Lemma imp_ok mn md n s :
  imp_of mn = Some md -> cpu_ok s -> 0 <= m_pc s -> m_pc s + (match mn with JMP | JSR => 3 | _ => 1 end) <= 65536 ->
  let c := perform mn 0 (view s) (view (fetched n s)) in
  completes (run_mode md (fetched n s)) s (if poll mn (is_irq s) c then interrupt false c else c)
    (m_cycle s + n + (if poll mn (is_irq s) c then 7 else 0)).
Proof.
  intros Ho H Hpc Hlen. cbv zeta.
  assert (B : forall a, 0 <= ld (m_memory s) a < 256) by (intros; now apply ld_byte).
  assert (Bm : forall v, byte (v mod 256)) by (unfold byte; lia).
  pose proof H as [Oa Ox Oy Os On Oc Ov Om].
  pose proof (cpu_ok_fetched n s H) as Hf.
  assert (Rf : rest (fetched n s) = rest s) by reflexivity.
  assert (Cf : m_cycle (fetched n s) = m_cycle s + n) by reflexivity.
  destruct mn; cbn [imp_of] in Ho; try discriminate Ho; injection Ho as <-;
    match goal with |- context [poll ?m] => lazymatch eval cbn in (polls m) with true => idtac | false =>
      unfold poll; cbn [polls andb]; rewrite Z.add_0_r end end; cbn [run_mode perform].
  - (* ASL A *)
    apply completes_done; try reflexivity. proj. arith. unfold load_a. rewrite view_nz, view_a, view_c by apply Bm.
    unfold acc_shift, asl, w8. rewrite carry7 by assumption. rewrite (Z.mul_comm 2). reflexivity.
  - (* LSR A *)
    apply completes_done; try reflexivity. proj. arith. unfold load_a. rewrite view_nz, view_a, view_c by (unfold byte in *; lia).
    reflexivity.
  - (* ROL A *)
    apply completes_done; try reflexivity. proj. arith. unfold load_a. rewrite view_nz, view_a, view_c by apply Bm.
    unfold acc_shift, rol, w8. change (fC (view (fetched n s))) with (m_c s =? 1). rewrite <- c_eq1 by assumption.
    change (A (view (fetched n s))) with (m_a s). rewrite (Z.mul_comm 2).
    replace ((m_a s * 2 + m_c s) / 256 =? 1) with (128 <=? m_a s); [reflexivity|].
    unfold byte in *. destruct (128 <=? m_a s) eqn:E; lia.
  - (* ROR A *)
    apply completes_done; try reflexivity. proj. arith.
    assert (Bh : byte (m_c s * 128 + m_a s / 2)) by (unfold byte in *; lia).
    unfold load_a. rewrite view_nz, view_a, view_c by exact Bh.
    unfold acc_shift, ror. change (fC (view (fetched n s))) with (m_c s =? 1). rewrite <- c_eq1 by assumption.
    change (A (view (fetched n s))) with (m_a s). replace (m_c s * 128 + m_a s / 2) with (m_a s / 2 + 128 * m_c s) by lia. reflexivity.
  - apply completes_done; reflexivity.
  - apply completes_done; try reflexivity. apply vdi_clear. exact Ov.
  - (* CLI *)
    assert (H1 : cpu_ok (set_m_vdi (Z.land (m_vdi s) 72) (fetched n s))).
    { destruct Hf. constructor; proj; try assumption. rewrite <- Z.land_assoc. reflexivity. }
    assert (V1 : view (set_m_vdi (Z.land (m_vdi s) 72) (fetched n s)) = wI false (view (fetched n s))) by exact (proj1 (vdi_clear (fetched n s) Ov)).
    destruct (check_irq_view CLI _ s eq_refl H1 eq_refl) as (s1 & E1 & V2 & R1 & C1). proj. rewrite E1. cbn [bind].
    apply completes_done; [rewrite V2, V1; reflexivity|exact R1|rewrite C1, V1; proj; reflexivity].
  - apply completes_done; try reflexivity. apply vdi_clear. exact Ov.
  - apply completes_done; reflexivity.
  - apply completes_done; try reflexivity. apply vdi_clear. exact Ov.
  - apply completes_done; try reflexivity. apply vdi_set_i. exact Ov.
  - apply completes_done; try reflexivity. proj. arith. unfold load_x. rewrite view_nz, view_x by apply Bm. reflexivity.
  - apply completes_done; try reflexivity. proj. arith. unfold load_y. rewrite view_nz, view_y by apply Bm. reflexivity.
  - apply completes_done; try reflexivity. proj. arith. unfold load_x. rewrite view_nz, view_x by apply Bm. reflexivity.
  - apply completes_done; try reflexivity. proj. arith. unfold load_y. rewrite view_nz, view_y by apply Bm. reflexivity.
  - apply completes_done; reflexivity.
  - apply completes_done; try reflexivity. unfold load_x. rewrite view_nz, view_x by exact Oa. reflexivity.
  - apply completes_done; try reflexivity. unfold load_y. rewrite view_nz, view_y by exact Oa. reflexivity.
  - apply completes_done; try reflexivity. unfold load_x. rewrite view_nz, view_x by exact Os. reflexivity.
  - apply completes_done; try reflexivity. unfold load_a. rewrite view_nz, view_a by exact Ox. reflexivity.
  - apply completes_done; reflexivity.
  - apply completes_done; try reflexivity. unfold load_a. rewrite view_nz, view_a by exact Oy. reflexivity.
  - (* PHA *)
    destruct (push_view (m_a (fetched n s)) _ Hf) as (s1 & E1 & V1 & H1 & S1). rewrite E1. cbn [bind].
    apply completes_done; [|apply S1|rewrite <- Cf; apply S1].
    rewrite V1. rewrite u8_byte by exact Oa. reflexivity.
  - (* PHP *)
    destruct (push_flags_view true _ Hf) as (s1 & E1 & V1 & H1 & S1). cbn iota in E1. rewrite E1. cbn [bind].
    apply completes_done; [exact V1|apply S1|rewrite <- Cf; apply S1].
  - (* PLA *)
    destruct (pull_view _ Hf) as (v & s1 & E1 & V1 & B1 & H1 & S1). rewrite E1, V1. cbn [bind].
    apply completes_done; [|apply S1|rewrite <- Cf; apply S1].
    unfold load_a. rewrite view_nz, view_a by exact B1. reflexivity.
  - (* PLP *)
    destruct (pull_flags_view _ Hf) as (s1 & E1 & V1 & H1 & R1 & C1 & P1). rewrite E1. cbn [bind].
    destruct (check_irq_view PLP s1 s eq_refl H1 (rest_irq s s1 R1)) as (s2 & E2 & V2 & R2 & C2). rewrite E2. cbn [bind].
    apply completes_done; [rewrite V2, V1; reflexivity|now rewrite R2|rewrite C2, C1, Cf, V1; reflexivity].
  - (* RTI *)
    destruct (pull_flags_view _ Hf) as (s1 & E1 & V1 & H1 & R1 & C1 & P1). rewrite E1. cbn [bind].
    destruct (pull_view _ H1) as (v2 & s2 & E2 & V2 & B2 & H2 & S2). rewrite E2. cbn [bind].
    destruct (pull_view _ H2) as (v3 & s3 & E3 & V3 & B3 & H3 & S3). rewrite E3. cbn [bind].
    assert (R3 : rest s3 = rest s) by (destruct S3 as (-> & _), S2 as (-> & _); exact R1).
    match goal with |- completes (bind (check_irq ?s) _) _ (if poll RTI _ ?c then _ else _) _ => set (s4 := s); set (c4 := c) end.
    assert (V4 : view s4 = c4).
    2:{ destruct (check_irq_view RTI s4 s eq_refl (cpu_ok_pc _ _ H3) (rest_irq s s3 R3)) as (s5 & E5 & V5 & R5 & C5). rewrite E5. cbn [bind].
        apply completes_done; [rewrite V5, V4; reflexivity|now rewrite R5|rewrite C5, V4].
        destruct S3 as (_ & S3 & _), S2 as (_ & S2 & _). subst s4. proj. rewrite S3, S2, C1. reflexivity. }
    subst s4 c4. rewrite view_pc. destruct (pull_byte (view (fetched n s))) as [v1 c1]. rewrite <- V1. unfold pull_word. rewrite V2, V3.
    arith. f_equal. unfold byte in *. lia.
  - (* RTS *)
    destruct (pull_view _ Hf) as (v2 & s2 & E2 & V2 & B2 & H2 & S2). rewrite E2. cbn [bind].
    destruct (pull_view _ H2) as (v3 & s3 & E3 & V3 & B3 & H3 & S3). rewrite E3. cbn [bind].
    assert (R3 : rest s3 = rest s) by (destruct S3 as (-> & _); apply S2).
    apply completes_done; [|exact R3|destruct S3 as (_ & S3 & _), S2 as (_ & S2 & _); proj; congruence].
    rewrite view_pc. unfold pull_word. rewrite V2, V3. arith. unfold w16. f_equal. f_equal. lia.
  - (* BRK *)
    destruct (execute_irq_view true (skip 1 (fetched n s)) (cpu_ok_skip _ _ Hf)) as (s1 & E1 & V1 & H1 & R1 & C1).
    cbn iota in E1. rewrite E1. cbn [bind]. apply completes_done; [|exact R1|exact C1].
    rewrite V1. f_equal. unfold skip. rewrite view_pc. f_equal. unfold w16. proj. lia.
  - (* JMP *)
    rewrite fetch_ok by (proj; lia). cbn [bind]. rewrite mem_rd_ok by (proj; lia). cbn [bind]. apply completes_done; try reflexivity.
    rewrite view_pc. unfold arg16, mw. proj. arith. rewrite (Z.mod_small (m_pc s)), !w16_id by lia.
    pose proof (B (m_pc s + 1)). pose proof (B (m_pc s + 2)).
    replace (m_pc s + 1 + 1) with (m_pc s + 2) by lia. rewrite Z.mod_small by lia. rewrite (Z.mul_comm 256). reflexivity.
  - (* JSR *)
    rewrite fetch_ok by (proj; lia). cbn [bind].
    assert (H1 : cpu_ok (skip 1 (fetched n s))) by now apply cpu_ok_skip.
    destruct (push_pc_view _ H1) as (s2 & E2 & V2 & H2 & S2). rewrite E2. cbn [bind].
    assert (P2 : m_pc s2 = m_pc s + 2) by (destruct S2 as (_ & _ & -> & _); proj; lia).
    rewrite mem_rd_ok by lia. cbn [bind].
    apply completes_done; [|exact (proj1 S2)|destruct S2 as (_ & C2 & _); exact C2].
    rewrite view_pc. proj. arith. rewrite (Z.mod_small (m_pc s)), !w16_id by lia.
    assert (V2' : wPC (m_pc s + 1) (view s2) = push_word (m_pc s + 2) (view (fetched n s))).
    { rewrite V2. unfold skip at 1 2. rewrite view_pc.
      replace (m_pc (fetched n s) + 1) with (m_pc s + 2) by (proj; lia). rewrite Z.mod_small by lia.
      assert (G : forall c, PC c = m_pc s + 1 -> wPC (m_pc s + 1) (push_word (PC (wPC (m_pc s + 2) c)) (wPC (m_pc s + 2) c)) = push_word (m_pc s + 2) c).
      { intros [] E. cbn in E. rewrite E. reflexivity. }
      apply G. unfold view. proj. rewrite Z.mod_small; lia. }
    rewrite <- V2'. change (M (wPC (m_pc s + 1) (view s2))) with (m_memory s2).
    pose proof (B (m_pc s + 1)). pose proof (ld_byte s2 (m_pc s + 2) H2).
    rewrite P2. rewrite Z.mod_small by lia. rewrite (Z.mul_comm 256). reflexivity.
Qed.

(* ---- branches ---- *)
Lemma signed_xor v : byte v -> Z.lxor v 128 - 128 = signed v.
Proof. intros H. apply Z.eqb_eq. revert v H. apply byte_sweep. vm_compute. reflexivity. Qed.

Lemma same_page a b : (Z.shiftr (Z.lxor a b) 8 =? 0) = (a / 256 =? b / 256).
Proof.
  rewrite Z.shiftr_lxor. arith. destruct (a / 256 =? b / 256) eqn:E.
  - apply Z.eqb_eq in E. rewrite E, Z.lxor_nilpotent. reflexivity.
  - apply Z.eqb_neq in E. apply Z.eqb_neq. intros L. apply Z.lxor_eq in L. lia.
Qed.

Lemma vdi_v s : Z.land (m_vdi s) 76 = m_vdi s -> (Z.land (m_vdi s) 64 =? 0) = negb (Z.testbit (m_vdi s) 6).
Proof.
  intros H. apply eqb_prop. revert H. generalize (m_vdi s). apply vdi_sweep. vm_compute. reflexivity.
Qed.

Lemma branch_ok mn md n s :
  branch_of mn = Some md -> cpu_ok s -> 0 <= m_pc s -> m_pc s + 2 <= 65536 ->
  performs (r <- run_mode md (fetched n s) ;; match r with Done s => Ok s | Operand addr s => run_operation O_branch addr s end)
    (set_m_cycle (m_cycle s + n + (if taken mn (view s)
       then if (PC (view s) + 2) / 256 =? (PC (view s) + 2 + signed (arg8 (view s))) / 256 then 1 else 2 else 0)) s)
    (perform mn 0 (view s) (wPC (w16 (PC (view s) + 2)) (view s))).
Proof.
  intros Ho H Hpc Hlen. pose proof H as [Oa Ox Oy Os On Oc Ov Om].
  assert (B : forall a, 0 <= ld (m_memory s) a < 256) by (intros; now apply ld_byte).
  assert (G : run_mode md (fetched n s) = branch_if (taken mn (view s)) (fetched n s)).
  { destruct mn; cbn [branch_of] in Ho; try discriminate Ho; injection Ho as <-; cbn [run_mode taken]; f_equal; proj; arith;
      rewrite ?vdi_v by exact Ov; rewrite ?negb_involutive; try reflexivity.
    - destruct (128 <=? m_nz s) eqn:E; cbn [negb]; lia.
    - destruct (m_c s =? 1) eqn:E; cbn [negb]; lia.
    - destruct (m_c s =? 1) eqn:E; destruct (m_c s =? 0) eqn:E'; cbn [negb]; lia. }
  rewrite G.
  assert (P : perform mn 0 (view s) (wPC (w16 (PC (view s) + 2)) (view s)) =
     if taken mn (view s) then wPC (w16 (w16 (PC (view s) + 2) + signed (arg8 (view s)))) (view s) else wPC (w16 (PC (view s) + 2)) (view s)).
  { destruct mn; cbn [branch_of] in Ho; try discriminate Ho; reflexivity. }
  rewrite P. clear P G. unfold branch_if. destruct (taken mn (view s)); cbn [bind done].
  - unfold run_operation, take_branch. rewrite mem_rd_ok by (proj; lia). cbn [bind]. rewrite same_page.
    apply performs_ok; [|reflexivity|].
    + rewrite view_pc. unfold arg8. proj. rewrite (Z.mod_small (m_pc s)), (w16_id (m_pc s + 1)) by lia. rewrite signed_xor by apply B.
      unfold w16, view, wPC. proj. f_equal. rewrite ?(Z.mod_small (m_pc s)) by lia. rewrite Zplus_mod_idemp_l. f_equal. lia.
    + unfold arg8. proj. rewrite (Z.mod_small (m_pc s)), (w16_id (m_pc s + 1)) by lia. rewrite signed_xor by apply B. rewrite Z.eqb_sym.
      replace (signed (ld (m_memory s) (m_pc s + 1)) + (m_pc s + 1 + 1)) with (m_pc s + 2 + signed (ld (m_memory s) (m_pc s + 1))) by lia.
      replace (m_pc s + 1 + 1) with (m_pc s + 2) by lia. reflexivity.
  - apply performs_ok; [|reflexivity|proj; lia].
    unfold skip. rewrite view_pc. unfold w16, view, wPC. proj. f_equal. lia.
Qed.

(* ---- the table ---- *)
Definition row_ok (r : row) : Prop :=
  let '(op, m, am, n, page) := r in
  byte op /\ get opcode_cycles op = Ok n /\
  match op_of m with
  | Some o => first_switch op = mode_of am page /\ second_switch op = o /\ mode_of am page <> M_abort /\
              (page = true -> match am with ABSX | ABSY | INDY => True | _ => False end)
  | None =>
    page = false /\
    match branch_of m with
    | Some md => first_switch op = md /\ second_switch op = O_branch /\ am = REL
    | None =>
      match imp_of m with
      | Some md => first_switch op = md /\ am = match m with JMP | JSR => ABS | _ => IMP end
      | None => first_switch op = M_abs /\ second_switch op = O_jmp_ind /\ am = ABS /\ m = JMPI
      end
    end
  end.

Lemma rows_ok : Forall row_ok documented.
Proof.
  apply Forall_forall. intros r Hr. vm_compute in Hr.
  repeat (destruct Hr as [Hr|Hr]; [subst r; unfold row_ok; cbn [op_of branch_of imp_of mode_of];
    repeat split; try reflexivity; try lia; try discriminate|]). destruct Hr.
Qed.

Lemma ea_range am s : cpu_ok s -> 0 <= ea am (view s) < 65536.
Proof.
  intros H. assert (B : forall a, 0 <= ld (m_memory s) a < 256) by (intros; now apply ld_byte).
  unfold ea, mw, arg8, arg16, mw, w16, w8. destruct am; proj; try lia.
  - pose proof (B ((m_pc s mod 65536 + 1) mod 65536)). lia.
  - pose proof (B ((m_pc s mod 65536 + 1) mod 65536)). pose proof (B ((m_pc s mod 65536 + 2) mod 65536)). lia.
  - match goal with |- 0 <= ld _ ?a + 256 * ld _ ?b < _ => pose proof (B a); pose proof (B b) end. lia.
Qed.

(* what the theorem asks of the state *)
Definition runnable (r : row) (s : asap) : Prop :=
  let '(op, m, am, n, page) := r in
  0 <= m_pc s /\ m_pc s + ilen am <= 65536 /\ ld (m_memory s) (m_pc s) = op /\
  (uses_memory m = true -> hardware (ea am (view s)) = false) /\
  (m = JMPI -> arg16 (view s) mod 256 <> 255).

Lemma uses_memory_op m : uses_memory m = true <-> op_of m <> None.
Proof. destruct m; cbn; split; intros; try discriminate; try reflexivity; exfalso; auto. Qed.

Lemma cpu_ok_addressed am page n s : cpu_ok s -> cpu_ok (addressed am page n s).
Proof. intros []. constructor; assumption. Qed.

Lemma taken_plain m c : branch_of m = None -> taken m c = false.
Proof. destruct m; cbn; try discriminate; reflexivity. Qed.

Lemma execute_documented r s : In r documented -> cpu_ok s -> runnable r s ->
  exists s', execute s = Ok s' /\ view s' = run_irq r (is_irq s) (view s) /\
    m_cycle s' = m_cycle s + duration_irq r (is_irq s) (view s) /\ rest s' = rest s.
Proof.
  intros Hr H Hrun.
  assert (R : row_ok r) by (eapply Forall_forall; [exact rows_ok|exact Hr]). clear Hr.
  destruct r as ((((op, m), am), n), page). destruct R as (Bop & Hn & R). destruct Hrun as (Hpc & Hlen & Hop & Hhw & Hind).
  assert (L : 1 <= ilen am) by (destruct am; cbn; lia).
  assert (B : forall a, 0 <= ld (m_memory s) a < 256) by (intros; now apply ld_byte).
  assert (X0 : execute s = r <- run_mode (first_switch op) (fetched n s) ;;
     match r with Done s => Ok s | Operand addr s => run_operation (second_switch op) addr s end).
  { unfold execute. rewrite fetch_ok by lia. cbn [bind]. rewrite Hop, Hn. cbn [bind]. reflexivity. }
  rewrite X0. clear X0. unfold run_irq, duration_irq, run, duration.
  assert (VA : view (addressed am page n s) = wPC (w16 (PC (view s) + ilen am)) (view s)).
  { unfold addressed. rewrite view_pc. unfold view, wPC, w16. proj. f_equal. lia. }
  destruct (op_of m) as [o|] eqn:Eo.
  - assert (NP : forall irq c, poll m irq c = false) by (intros; destruct m; try discriminate Eo; reflexivity). rewrite NP.
    destruct R as (F1 & F2 & F3 & F4). rewrite F1, F2, (mode_ok am page n s H Hpc Hlen F3 F4). cbn [bind].
    destruct (op_ok m o (ea am (view s)) (view s) (addressed am page n s) Eo (cpu_ok_addressed _ _ _ _ H) (ea_range am s H)) as (s' & E' & V' & R' & C').
    { apply Hhw. apply uses_memory_op. congruence. }
    exists s'. split; [exact E'|]. split; [now rewrite V', VA|]. split.
    + rewrite C'. rewrite taken_plain by (destruct m; cbn in Eo |- *; congruence). unfold addressed. proj. lia.
    + rewrite R'. reflexivity.
  - destruct R as (Ep & R). subst page. destruct (branch_of m) as [md|] eqn:Eb.
    + assert (NP : forall irq c, poll m irq c = false) by (intros; destruct m; try discriminate Eb; reflexivity). rewrite NP.
      destruct R as (F1 & F2 & F3). subst am. rewrite F1, F2.
      destruct (branch_ok m md n s Eb H Hpc Hlen) as (s' & E' & V' & R' & C').
      exists s'. split; [exact E'|]. split; [exact V'|]. split; [|exact R'].
      rewrite C'. cbn [andb m_cycle set_m_cycle]. lia.
    + rewrite taken_plain by exact Eb. destruct (imp_of m) as [md|] eqn:Ei.
      * destruct R as (F1 & F2). rewrite F1.
        destruct (imp_ok m md n s Ei H Hpc) as (s' & E' & V' & R' & C').
        { subst am. destruct m; cbn [ilen] in Hlen; try discriminate Ei; lia. }
        assert (PE : perform m (ea am (view s)) (view s) (wPC (w16 (PC (view s) + ilen am)) (view s)) = perform m 0 (view s) (view (fetched n s))).
        { rewrite view_fetched by exact Hpc. subst am. destruct m; cbn [ilen] in Hlen |- *; try discriminate Ei; try reflexivity. }
        rewrite PE. exists s'. rewrite E'. cbn [bind]. split; [reflexivity|]. split; [exact V'|split; [|exact R']].
        rewrite C'. cbn [andb]. lia.
      * destruct R as (F1 & F2 & F3 & F4). subst am m. rewrite F1, F2.
        pose proof (mode_ok ABS false n s H Hpc Hlen) as MO. cbn [mode_of] in MO. rewrite MO by discriminate. clear MO. cbn [bind].
        unfold run_operation. set (ad := ea ABS (view s)). pose proof (ea_range ABS s H) as Hea. fold ad in Hea.
        specialize (Hind eq_refl). change (arg16 (view s)) with ad in Hind.
        rewrite mem_rd_ok by lia. cbn [bind]. rewrite land_255.
        replace ((ad + 1) mod 256 =? 0) with false by lia.
        rewrite mem_rd_ok by lia. cbn [bind]. eexists. split; [reflexivity|]. split; [|split; [|reflexivity]].
        -- rewrite view_pc, VA. unfold perform, mw. arith.
           change (m_memory (addressed ABS false n s)) with (m_memory s).
           change (M (wPC (w16 (PC (view s) + ilen ABS)) (view s))) with (m_memory s).
           pose proof (B ad). pose proof (B (ad + 1)). rewrite Z.mod_small by lia.
           replace (ad - ad mod 256 + w8 (ad + 1)) with (ad + 1) by (unfold w8; lia). rewrite (Z.mul_comm 256). reflexivity.
        -- unfold addressed. proj. cbn [andb poll polls]. lia.
Qed.
