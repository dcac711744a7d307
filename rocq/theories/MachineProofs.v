(* The emulated machine: what every instruction, event and frame preserves, for every program *)
From Verif Require Import Base BaseFacts Loop MemModel InfoModel InfoProofs PokeyModel MachineModel CpuSpec CpuArith CpuProofs PokeyProofs.

(* what emulation leaves alone: the loaded module, the playback settings and the sampling state of the POKEY pair *)
Definition fixed (pp : pokeyPair) :=
  (pp_extraPokeyMask pp, pp_sampleRate pp, pp_sincLookup pp, pp_sampleFactor pp, pp_sampleOffset pp, pp_readySamplesStart pp, pp_readySamplesEnd pp).
Definition settings (s : asap) :=
  (m_info s, m_currentSong s, m_currentDuration s, m_blocksPlayed s, m_silenceCycles s, m_silenceCyclesCounter s, m_currentSampleRate s).
Definition still (s : asap) := (settings s, fixed (m_pokeys s)).
Lemma still_info s s' : still s' = still s -> m_info s' = m_info s.
Proof. unfold still, settings. congruence. Qed.
Lemma still_rest s s' : rest s' = rest s -> still s' = still s.
Proof. unfold rest, still, settings. intros H. injection H. intros. congruence. Qed.

Section Machine.
Variable B : ub_reason -> Prop.
Variable F : Prop.
Hypothesis HO : B UbOverflow.
Variable Sz : Z * Z -> Z -> Z -> Prop.

(* the POKEYs and the event clock; [limit] is the last cycle at which the output buffers have room *)
Record hw_ok (limit : Z) (s : asap) : Prop := mkHwOk {
  hw_base : live B Sz (m_pokeys s) limit (pp_basePokey (m_pokeys s));
  hw_extra : live B Sz (m_pokeys s) limit (pp_extraPokey (m_pokeys s));
  hw_event : 0 <= m_nextEventCycle s <= m_nextScanlineCycle s
}.

Lemma hw_rest limit s s' : rest s' = rest s -> hw_ok limit s -> hw_ok limit s'.
Proof.
  intros R [H1 H2 H3]. unfold rest in R. injection R. intros. constructor.
  - replace (m_pokeys s') with (m_pokeys s); congruence.
  - replace (m_pokeys s') with (m_pokeys s); congruence.
  - lia.
Qed.

Definition keeps (limit : Z) (s s' : asap) : Prop :=
  cpu_ok s' /\ hw_ok limit s' /\ still s' = still s /\ m_nextScanlineCycle s' = m_nextScanlineCycle s.

Lemma keeps_cpu limit s s' : hw_ok limit s -> cpu_ok s' -> rest s' = rest s -> keeps limit s s'.
Proof.
  intros H C R. split; [exact C|]. split; [now apply hw_rest with s|]. split; [now apply still_rest|]. unfold rest in R. injection R. intros. congruence.
Qed.
Lemma keeps_trans limit a b c : keeps limit a b -> keeps limit b c -> keeps limit a c.
Proof. intros (_ & _ & A3 & A4) (B1 & B2 & B3 & B4). split; [exact B1|]. split; [exact B2|]. split; congruence. Qed.
Lemma keeps_refl limit s : cpu_ok s -> hw_ok limit s -> keeps limit s s.
Proof. intros C H. split; [exact C|]. split; [exact H|]. now split. Qed.

(* memory is readable there, or we do not care *)
Definition inside (a n : Z) : Prop := B UbRead \/ (0 <= a /\ a + n <= 65536).

Lemma wpg_mem_rd s a (P : Z -> Prop) : cpu_ok s -> inside a 1 -> (forall v, byte v -> P v) -> wpg B F (mem_rd s a) P.
Proof.
  intros H I HP. unfold mem_rd, rd. destruct (in_mem a) eqn:E; cbn [wpg]; [apply HP, (ok_mem _ H)|].
  destruct I as [I|I]; [exact I|]. unfold in_mem in E. lia.
Qed.

Lemma wpg_mem_wr s a v (P : asap -> Prop) : 0 <= a < 65536 -> P (set_m_memory (st (m_memory s) a (u8 v)) s) -> wpg B F (mem_wr a v s) P.
Proof. intros Ha H. rewrite mem_wr_ok by exact Ha. exact H. Qed.

Lemma cpu_ok_mem s a v : cpu_ok s -> cpu_ok (set_m_memory (st (m_memory s) a (u8 v)) s).
Proof. intros []. constructor; proj; try assumption. apply byte_mem_st; [assumption|apply byte_u8]. Qed.

Lemma wpg_fetch s (P : Z * asap -> Prop) : cpu_ok s -> inside (m_pc s) 1 -> (forall v, byte v -> P (v, skip 1 s)) -> wpg B F (fetch s) P.
Proof.
  intros H I HP. unfold fetch. apply wpg_bind. apply wpg_mem_rd; [exact H|exact I|]. intros v Hv. cbn [wpg]. now apply HP.
Qed.

(* ---- hardware ---- *)
Lemma random_index pp limit p cycle : 0 <= cycle -> live B Sz pp limit p -> 0 <= cycle + pk_polyIndex p.
Proof. intros Hc [[] _ _ _]. lia. Qed.

Lemma pair_peek_ok pp limit addr cycle (P : Z -> Prop) : 0 <= cycle ->
  live B Sz pp limit (pp_basePokey pp) -> live B Sz pp limit (pp_extraPokey pp) -> (forall v, byte v -> P v) ->
  wpg B F (pair_peek addr cycle pp) P.
Proof.
  intros Hc L1 L2 HP. unfold pair_peek. cbv zeta.
  set (p := if negb (Z.land addr (pp_extraPokeyMask pp) =? 0) then pp_extraPokey pp else pp_basePokey pp).
  assert (L : live B Sz pp limit p) by (unfold p; destruct (negb (Z.land addr (pp_extraPokeyMask pp) =? 0)); assumption). clearbody p.
  pose proof (random_index pp limit p cycle Hc L) as R.
  assert (B255 : wpg B F (Ok 255) P) by (apply HP; unfold byte; lia).
  assert (X10 : wpg B F (if pk_init p then Ok 255
    else if negb (Z.land (pk_audctl p) 128 =? 0) then get poly9Lookup (Z.rem (cycle + pk_polyIndex p) 511)
    else a <- get poly17Lookup (Z.shiftr (Z.rem (cycle + pk_polyIndex p) 131071) 3) ;;
         b <- get poly17Lookup (Z.shiftr (Z.rem (cycle + pk_polyIndex p) 131071) 3 + 1) ;;
         Ok (Z.land (Z.shiftr a (Z.land (Z.rem (cycle + pk_polyIndex p) 131071) 7) + Z.shiftl b (8 - Z.land (Z.rem (cycle + pk_polyIndex p) 131071) 7)) 255)) P).
  { destruct (pk_init p); [exact B255|]. destruct (negb (Z.land (pk_audctl p) 128 =? 0)).
    - apply (get_byte_table B F); [apply poly9_bytes| |exact HP]. rewrite poly9_len, Z.rem_mod_nonneg by lia. lia.
    - rewrite Z.rem_mod_nonneg by lia. rewrite !Z.shiftr_div_pow2 with (n := 3) by lia. change (2 ^ 3) with 8.
      apply wpg_bind, (get_byte_table B F); [apply poly17_bytes|rewrite poly17_len; lia|]. intros a _.
      apply wpg_bind, (get_byte_table B F); [apply poly17_bytes|rewrite poly17_len; lia|]. intros b _.
      cbn [wpg]. apply HP. rewrite land_255. unfold byte. lia. }
  assert (X14 : wpg B F (Ok (pk_irqst p)) P) by (apply HP; apply (po_irqst _ (lv_ok _ _ _ _ _ L))).
  destruct (Z.land addr 15) as [|q|q]; try exact B255.
  repeat match goal with |- context [match ?q with xI _ => _ | _ => _ end] => is_var q; destruct q end; try exact B255; try exact X14; try exact X10.
Qed.

Lemma peek_hardware_ok limit s addr (P : Z -> Prop) : cpu_ok s -> hw_ok limit s -> 0 <= m_cycle s -> inside addr 1 -> (forall v, byte v -> P v) ->
  wpg B F (peek_hardware s addr) P.
Proof.
  intros C H Hc I HP. unfold peek_hardware.
  assert (M : wpg B F (mem_rd s addr) P) by (apply wpg_mem_rd; assumption).
  assert (K : forall v, byte v -> wpg B F (Ok v) P) by (intros v Hv; apply HP, Hv).
  assert (PK : wpg B F (pair_peek addr (m_cycle s) (m_pokeys s)) P) by (apply pair_peek_ok with limit; [exact Hc|apply H|apply H|exact HP]).
  assert (V : wpg B F (Ok (if frame_cycles (m_info s) <? m_cycle s then 0 else Z.quot (m_cycle s) 228)) P).
  { apply K. destruct (frame_cycles (m_info s) <? m_cycle s) eqn:E; [unfold byte; lia|].
    assert (frame_cycles (m_info s) <= 35568) by (unfold frame_cycles; destruct (i_ntsc (m_info s)); lia).
    rewrite Z.quot_div_nonneg by lia. unfold byte. lia. }
  assert (T : wpg B F (Ok (match m_nmist s with NMI_RESET => 31 | NMI_WAS_V_BLANK => 95 | NMI_ON_V_BLANK => if m_cycle s <? 28291 then 31 else 95 end)) P).
  { apply K. destruct (m_nmist s); [|destruct (m_cycle s <? 28291)|]; unfold byte; lia. }
  assert (N : wpg B F (Ok (if i_ntsc (m_info s) then 15 else 1)) P) by (apply K; destruct (i_ntsc (m_info s)); unfold byte; lia).
  assert (S : wpg B F (Ok (Z.land (Z.lnot (m_consol s)) 15)) P) by (apply K; rewrite land_15; unfold byte; lia).
  assert (E255 : wpg B F (Ok 255) P) by (apply K; unfold byte; lia).
  destruct (Z.land addr 65311) as [|q|q]; try exact M.
  repeat (match goal with |- context [match ?q with xI _ => _ | _ => _ end] => is_var q; destruct q end; try exact M);
    first [exact PK | exact V | exact T | exact N | exact S | exact E255].
Qed.

Lemma cpu_peek_wpg limit s addr (P : Z -> Prop) : cpu_ok s -> hw_ok limit s -> 0 <= m_cycle s -> inside addr 1 -> (forall v, byte v -> P v) ->
  wpg B F (cpu_peek s addr) P.
Proof.
  intros C H Hc I HP. unfold cpu_peek. destruct (Z.land addr 63744 =? 53248).
  - now apply peek_hardware_ok with limit.
  - now apply wpg_mem_rd.
Qed.

(* [live] looks at the sampling parameters only *)
Lemma live_pair pp pp' limit p : rates pp' = rates pp -> pp_sampleOffset pp' = pp_sampleOffset pp ->
  live B Sz pp limit p -> live B Sz pp' limit p.
Proof.
  intros E1 E2 [L1 L2 L3 L4]. constructor; [exact L1| |exact L3|unfold sized in *; now rewrite E1].
  assert (E3 : pp_sampleFactor pp' = pp_sampleFactor pp) by (unfold rates in E1; congruence). unfold room in *. now rewrite E3, E2.
Qed.

Lemma pair_poke_ok pp limit addr data cycle : byte data -> short cycle -> cycle <= limit ->
  live B Sz pp limit (pp_basePokey pp) -> live B Sz pp limit (pp_extraPokey pp) ->
  wpg B F (pair_poke addr data cycle pp) (fun r => cycle <= fst r /\
    live B Sz (snd r) limit (pp_basePokey (snd r)) /\ live B Sz (snd r) limit (pp_extraPokey (snd r)) /\ fixed (snd r) = fixed pp).
Proof.
  intros Hd Hs Hl L1 L2. unfold pair_poke. destruct (negb (Z.land addr (pp_extraPokeyMask pp) =? 0)); apply wpg_bind.
  - eapply wpg_mono; [apply (pokey_poke_ok B F HO Sz pp addr data cycle limit); eassumption|]. intros [t p] (T & L). cbn [fst snd] in *.
    cbn [wpg fst snd]. split; [exact T|]. split; [|split; [|reflexivity]]; (apply live_pair with pp; [reflexivity|reflexivity|]); assumption.
  - eapply wpg_mono; [apply (pokey_poke_ok B F HO Sz pp addr data cycle limit); eassumption|]. intros [t p] (T & L). cbn [fst snd] in *.
    cbn [wpg fst snd]. split; [exact T|]. split; [|split; [|reflexivity]]; (apply live_pair with pp; [reflexivity|reflexivity|]); assumption.
Qed.

Lemma external_live pp limit cycle d p : 0 <= cycle <= limit -> live B Sz pp limit p ->
  wpg B F (add_external_delta pp cycle d p) (live B Sz pp limit).
Proof.
  intros Hc L. eapply wpg_mono; [apply (add_external_delta_ok B F HO)|].
  - destruct (lv_room _ _ _ _ _ L) as [S|S]; [left; exact S|right]. apply room_mono with limit; [exact S|lia].
  - intros p' (b & E & ->). apply live_intro with p; [exact L| |split; [exact E|reflexivity]|].
    + destruct (lv_ok _ _ _ _ _ L). constructor; assumption.
    + intros []. constructor; assumption.
Qed.

(* the machine part of a hardware write *)
Definition poked (limit addr : Z) (s s' : asap) : Prop :=
  keeps limit s s' /\ m_cycle s <= m_cycle s' /\ m_pc s' = m_pc s /\ (Z.shiftr addr 8 = 210 -> m_cycle s' = m_cycle s).

Lemma poked_intro limit addr s s' : cpu_ok s -> hw_ok limit s' ->
  m_memory s' = m_memory s -> m_a s' = m_a s -> m_x s' = m_x s -> m_y s' = m_y s -> m_s s' = m_s s -> m_nz s' = m_nz s -> m_c s' = m_c s ->
  m_vdi s' = m_vdi s -> still s' = still s -> m_nextScanlineCycle s' = m_nextScanlineCycle s -> m_cycle s <= m_cycle s' -> m_pc s' = m_pc s -> (Z.shiftr addr 8 = 210 -> m_cycle s' = m_cycle s) ->
  poked limit addr s s'.
Proof.
  intros C H E1 E2 E3 E4 E5 E6 E7 E8 E9 E10 E11 E12 E13. split; [|split; [exact E11|now split]]. split; [|split; [exact H|now split]].
  destruct C. constructor; rewrite ?E1, ?E2, ?E3, ?E4, ?E5, ?E6, ?E7, ?E8; assumption.
Qed.

Lemma poke_hardware_ok limit s addr data : cpu_ok s -> hw_ok limit s -> short (m_cycle s) -> m_cycle s <= limit -> byte data -> 0 <= addr < 65536 ->
  wpg B F (poke_hardware addr data s) (poked limit addr s).
Proof.
  intros C H Hs Hl Hd Ha. pose proof H as [H1 H2 H3]. unfold poke_hardware, short in *. cbv zeta.
  destruct (Z.shiftr addr 8 =? 210) eqn:A210.
  { apply wpg_bind. eapply wpg_mono; [apply (pair_poke_ok (m_pokeys s) limit); unfold short; eassumption|].
    intros [t pp] (T & L1 & L2 & FX). cbn [fst snd] in *. cbn [wpg]. change (m_nextEventCycle (set_m_pokeys pp s)) with (m_nextEventCycle s).
    destruct (t <? m_nextEventCycle s) eqn:E; apply poked_intro; try reflexivity; try assumption; try (unfold still; cbn [m_pokeys set_m_pokeys set_m_nextEventCycle]; rewrite FX; reflexivity); constructor; cbn [m_pokeys m_nextEventCycle
      m_nextScanlineCycle set_m_pokeys set_m_nextEventCycle]; try assumption; lia. }
  destruct (Z.land addr 65295 =? 54282).
  { cbn [wpg]. assert (0 <= (if Z.rem (m_cycle s) 114 <=? 106 then 106 else 220) - Z.rem (m_cycle s) 114).
    { rewrite Z.rem_mod_nonneg by lia. destruct (_ <=? 106) eqn:E; lia. }
    apply poked_intro; try reflexivity; try assumption; [apply hw_rest with s; [reflexivity|exact H]|proj; lia|lia]. }
  destruct (Z.land addr 65295 =? 54287).
  { cbn [wpg]. apply poked_intro; try reflexivity; try assumption. constructor; assumption. }
  destruct (Z.land addr 65280 =? i_covox (m_info s)).
  { destruct (_ =? 0); [cbn [wpg]; apply poked_intro; try reflexivity; assumption|].
    assert (Fin : forall pp, live B Sz pp limit (pp_basePokey pp) -> live B Sz pp limit (pp_extraPokey pp) -> fixed pp = fixed (m_pokeys s) -> forall cv,
       poked limit addr s (set_m_gtiaOrCovoxPlayedThisFrame true (set_m_covox cv (set_m_pokeys pp s)))).
    { intros pp L1 L2 FX cv. apply poked_intro; try reflexivity; try assumption; [constructor; assumption|]. unfold still. cbn [m_pokeys set_m_pokeys set_m_covox set_m_gtiaOrCovoxPlayedThisFrame]. rewrite FX. reflexivity. }
    destruct (_ || _); apply wpg_bind, wpg_bind; (eapply wpg_mono; [apply external_live with (limit := limit); [lia|eassumption]|]);
      intros p Lp; cbn [wpg]; (apply Fin; [| |reflexivity]); (apply live_pair with (m_pokeys s); [reflexivity|reflexivity|]); assumption. }
  destruct (Z.land addr 65311 =? 53279).
  { apply wpg_bind. assert (Fin : forall s1, poked limit addr s s1 -> wpg B F (Ok (set_m_consol data s1)) (poked limit addr s)).
    { intros s1 ((C1 & H1' & I1 & N1) & T1 & P1). cbn [wpg]. split; [|exact (conj T1 P1)]. split; [|split; [|now split]].
      - destruct C1. constructor; assumption.
      - destruct H1'. constructor; assumption. }
    destruct (_ =? 0); [cbn [wpg]; apply Fin; apply poked_intro; try reflexivity; assumption|].
    apply wpg_bind. eapply wpg_mono; [apply external_live with (limit := limit); [lia|exact H1]|]. intros p Lp.
    apply wpg_bind. eapply wpg_mono; [apply external_live with (limit := limit); [lia|]|].
    { apply live_pair with (m_pokeys s); [reflexivity|reflexivity|exact H2]. }
    intros q Lq. cbn [wpg]. apply Fin. apply poked_intro; try reflexivity; try assumption. constructor; [| |exact H3].
    - apply live_pair with (m_pokeys s); [reflexivity|reflexivity|exact Lp].
    - apply live_pair with (set_pp_basePokey p (m_pokeys s)); [reflexivity|reflexivity|exact Lq]. }
  apply wpg_mem_wr; [exact Ha|]. split; [|split; [proj; lia|split; reflexivity]]. apply keeps_cpu; [exact H|now apply cpu_ok_mem|reflexivity].
Qed.

Lemma cpu_poke_wpg limit s addr data : cpu_ok s -> hw_ok limit s -> short (m_cycle s) -> m_cycle s <= limit -> byte data -> 0 <= addr < 65536 ->
  wpg B F (cpu_poke addr data s) (poked limit addr s).
Proof.
  intros C H Hs Hl Hd Ha. unfold cpu_poke. destruct (Z.land addr 63744 =? 53248).
  - now apply poke_hardware_ok.
  - apply wpg_mem_wr; [exact Ha|]. split; [|split; [proj; lia|split; reflexivity]]. apply keeps_cpu; [exact H|now apply cpu_ok_mem|reflexivity].
Qed.

(* ---- instructions ---- *)
Definition moved (limit : Z) (s s' : asap) : Prop := keeps limit s s' /\ m_cycle s <= m_cycle s'.

Lemma moved_cpu limit s s' : hw_ok limit s -> cpu_ok s' -> rest s' = rest s -> m_cycle s <= m_cycle s' -> moved limit s s'.
Proof. intros. split; [now apply keeps_cpu|assumption]. Qed.

Lemma cpu_ok_cycle n s : cpu_ok s -> cpu_ok (set_m_cycle n s).
Proof. intros []. constructor; assumption. Qed.

Lemma keeps_cycle limit s n s' : keeps limit (set_m_cycle n s) s' -> keeps limit s s'.
Proof. intros H. exact H. Qed.
Lemma hw_cycle limit n s : hw_ok limit s -> hw_ok limit (set_m_cycle n s).
Proof. intros []. constructor; assumption. Qed.

Lemma peek_rmw_wpg limit s addr : cpu_ok s -> hw_ok limit s -> 1 <= m_cycle s <= 100000 -> m_cycle s <= limit -> 0 <= addr < 65536 ->
  wpg B F (peek_rmw addr s) (fun r => byte (fst r) /\ keeps limit s (snd r) /\ m_cycle (snd r) = m_cycle s /\ m_pc (snd r) = m_pc s).
Proof.
  intros C H Hs Hl Ha. unfold peek_rmw. destruct (Z.shiftr addr 8 =? 210) eqn:E.
  - apply wpg_bind. apply peek_hardware_ok with limit; [now apply cpu_ok_cycle|now apply hw_cycle|proj; lia|right; lia|]. intros v Hv.
    apply wpg_bind. eapply wpg_mono.
    { apply (poke_hardware_ok limit (set_m_cycle (m_cycle s - 1) s) addr v); [now apply cpu_ok_cycle|now apply hw_cycle|unfold short; proj; lia|proj; lia|exact Hv|exact Ha]. }
    intros s1 (K & _ & P1 & C1). specialize (C1 ltac:(lia)). cbn [wpg fst snd]. split; [exact Hv|].
    split; [|split; [proj; rewrite C1; proj; lia|exact P1]].
    destruct K as (K1 & K2 & K3 & K4). split; [now apply cpu_ok_cycle|]. split; [now apply hw_cycle|]. split; [exact K3|exact K4].
  - apply wpg_bind. apply wpg_mem_rd; [exact C|right; lia|]. intros v Hv. cbn [wpg fst snd]. split; [exact Hv|]. split; [now apply keeps_refl|split; reflexivity].
Qed.

(* read, compute, write back; the carry is set in between *)
Lemma rmw_ok limit s addr (f : Z -> Z) (g : Z -> asap -> asap) :
  cpu_ok s -> hw_ok limit s -> 1 <= m_cycle s <= 100000 -> m_cycle s <= limit -> 0 <= addr < 65536 ->
  (forall v, byte v -> byte (f v)) ->
  (forall v s1, byte v -> cpu_ok s1 -> cpu_ok (g v s1) /\ rest (g v s1) = rest s1 /\ m_cycle (g v s1) = m_cycle s1) ->
  wpg B F ('(v, s1) <- peek_rmw addr s ;; s2 <- cpu_poke addr (f v) (g v s1) ;; Ok (f v, s2)) (fun r => byte (fst r) /\ moved limit s (snd r)).
Proof.
  intros C H Hs Hl Ha Hf Hg. apply wpg_bind. eapply wpg_mono; [now apply (peek_rmw_wpg limit)|]. intros [v s1] (Hv & K & C1 & _). cbn [fst snd] in *.
  destruct K as (K1 & K2 & K3 & K4). destruct (Hg v s1 Hv K1) as (G1 & G2 & G3).
  apply wpg_bind. eapply wpg_mono.
  { apply (cpu_poke_wpg limit (g v s1) addr (f v)); [exact G1|now apply hw_rest with s1|unfold short; lia|lia|now apply Hf|exact Ha]. }
  intros s2 (K' & T & _). cbn [wpg fst snd]. split; [now apply Hf|]. split; [|lia].
  apply keeps_trans with (g v s1); [|exact K']. apply keeps_trans with s1; [split; [exact K1|split; [exact K2|now split]]|]. now apply keeps_cpu.
Qed.

Lemma moved_trans limit a b c : moved limit a b -> moved limit b c -> moved limit a c.
Proof. intros [K1 L1] [K2 L2]. split; [now apply keeps_trans with b|lia]. Qed.

Definition writes (o : operation) : bool :=
  match o with
  | O_slo | O_asl | O_rla | O_rol | O_sre | O_lsr | O_rra | O_ror | O_dcp | O_dec | O_isb | O_inc
  | O_sta | O_sax | O_sty | O_stx | O_jmp_ind => true
  | _ => false
  end.

Lemma byte_shr1 v : byte v -> byte (v / 2). Proof. unfold byte. lia. Qed.
Lemma byte_mod v : byte (v mod 256). Proof. unfold byte. lia. Qed.

Lemma cpu_ok_load_a v s : byte v -> cpu_ok s -> cpu_ok (load_a v s).
Proof. intros H []. constructor; proj; try assumption. unfold load_a. proj. unfold byte in H. lia. Qed.
Lemma cpu_ok_load_x v s : byte v -> cpu_ok s -> cpu_ok (load_x v s).
Proof. intros H []. constructor; proj; try assumption. unfold load_x. proj. unfold byte in H. lia. Qed.
Lemma cpu_ok_load_y v s : byte v -> cpu_ok s -> cpu_ok (load_y v s).
Proof. intros H []. constructor; proj; try assumption. unfold load_y. proj. unfold byte in H. lia. Qed.
Lemma cpu_ok_nz v s : byte v -> cpu_ok s -> cpu_ok (set_m_nz v s).
Proof. intros H []. constructor; proj; try assumption. unfold byte in H. lia. Qed.
Lemma cpu_ok_c v s : 0 <= v < 2 -> cpu_ok s -> cpu_ok (set_m_c v s).
Proof. intros H []. constructor; proj; assumption. Qed.
Lemma cpu_ok_a v s : byte v -> cpu_ok s -> cpu_ok (set_m_a v s).
Proof. intros H []. constructor; proj; assumption. Qed.
Lemma cpu_ok_s v s : byte v -> cpu_ok s -> cpu_ok (set_m_s v s).
Proof. intros H []. constructor; proj; assumption. Qed.
Lemma cpu_ok_vdi v s : Z.land v 76 = v -> cpu_ok s -> cpu_ok (set_m_vdi v s).
Proof. intros H []. constructor; proj; assumption. Qed.
Lemma cpu_ok_compare r v s : cpu_ok s -> cpu_ok (compare r v s).
Proof.
  intros H. unfold compare. rewrite land_255. apply cpu_ok_nz; [apply byte_mod|]. apply cpu_ok_c; [destruct (v <=? r); lia|exact H].
Qed.

Lemma carry_rest v s : rest (set_m_c v s) = rest s /\ m_cycle (set_m_c v s) = m_cycle s. Proof. now split. Qed.

Lemma asl_ok limit s addr : cpu_ok s -> hw_ok limit s -> 1 <= m_cycle s <= 100000 -> m_cycle s <= limit -> 0 <= addr < 65536 ->
  wpg B F (arithmetic_shift_left addr s) (fun r => byte (fst r) /\ moved limit s (snd r)).
Proof.
  intros C H Hs Hl Ha. apply (rmw_ok limit s addr (fun v => Z.land (Z.shiftl v 1) 255) (fun v => set_m_c (Z.shiftr v 7))); try assumption.
  - intros v _. rewrite land_255. apply byte_mod.
  - intros v s1 Hv C1. split; [|apply carry_rest]. apply cpu_ok_c; [|exact C1]. arith. unfold byte in Hv. lia.
Qed.
Lemma rol_ok limit s addr : cpu_ok s -> hw_ok limit s -> 1 <= m_cycle s <= 100000 -> m_cycle s <= limit -> 0 <= addr < 65536 ->
  wpg B F (rotate_left addr s) (fun r => byte (fst r) /\ moved limit s (snd r)).
Proof.
  intros C H Hs Hl Ha. pose proof (ok_c _ C) as Hc.
  apply (rmw_ok limit s addr (fun v => Z.land (Z.shiftl v 1 + m_c s) 255) (fun v => set_m_c (Z.shiftr (Z.shiftl v 1 + m_c s) 8))); try assumption.
  - intros v _. rewrite land_255. apply byte_mod.
  - intros v s1 Hv C1. split; [|apply carry_rest]. apply cpu_ok_c; [|exact C1]. arith. unfold byte in Hv. lia.
Qed.
Lemma lsr_ok limit s addr : cpu_ok s -> hw_ok limit s -> 1 <= m_cycle s <= 100000 -> m_cycle s <= limit -> 0 <= addr < 65536 ->
  wpg B F (logical_shift_right addr s) (fun r => byte (fst r) /\ moved limit s (snd r)).
Proof.
  intros C H Hs Hl Ha. apply (rmw_ok limit s addr (fun v => Z.shiftr v 1) (fun v => set_m_c (Z.land v 1))); try assumption.
  - intros v Hv. arith. now apply byte_shr1.
  - intros v s1 Hv C1. split; [|apply carry_rest]. apply cpu_ok_c; [|exact C1]. arith. lia.
Qed.
Lemma ror_ok limit s addr : cpu_ok s -> hw_ok limit s -> 1 <= m_cycle s <= 100000 -> m_cycle s <= limit -> 0 <= addr < 65536 ->
  wpg B F (rotate_right addr s) (fun r => byte (fst r) /\ moved limit s (snd r)).
Proof.
  intros C H Hs Hl Ha. pose proof (ok_c _ C) as Hc.
  apply (rmw_ok limit s addr (fun v => Z.shiftr (Z.shiftl (m_c s) 8 + v) 1) (fun v => set_m_c (Z.land (Z.shiftl (m_c s) 8 + v) 1))); try assumption.
  - intros v Hv. arith. unfold byte in *. lia.
  - intros v s1 Hv C1. split; [|apply carry_rest]. apply cpu_ok_c; [|exact C1]. arith. lia.
Qed.
Lemma dec_ok limit s addr : cpu_ok s -> hw_ok limit s -> 1 <= m_cycle s <= 100000 -> m_cycle s <= limit -> 0 <= addr < 65536 ->
  wpg B F (decrement addr s) (fun r => byte (fst r) /\ moved limit s (snd r)).
Proof.
  intros C H Hs Hl Ha. apply (rmw_ok limit s addr (fun v => Z.land (v - 1) 255) (fun v s => s)); try assumption.
  - intros v _. rewrite land_255. apply byte_mod.
  - intros v s1 Hv C1. now split.
Qed.
Lemma inc_ok limit s addr : cpu_ok s -> hw_ok limit s -> 1 <= m_cycle s <= 100000 -> m_cycle s <= limit -> 0 <= addr < 65536 ->
  wpg B F (increment addr s) (fun r => byte (fst r) /\ moved limit s (snd r)).
Proof.
  intros C H Hs Hl Ha. apply (rmw_ok limit s addr (fun v => Z.land (v + 1) 255) (fun v s => s)); try assumption.
  - intros v _. rewrite land_255. apply byte_mod.
  - intros v s1 Hv C1. now split.
Qed.

(* a CPU-only change after a move *)
Lemma moved_then limit s s1 s2 : moved limit s s1 -> cpu_ok s2 -> rest s2 = rest s1 -> m_cycle s2 = m_cycle s1 -> moved limit s s2.
Proof.
  intros M C R T. apply moved_trans with s1; [exact M|]. apply moved_cpu; [apply M|exact C|exact R|lia].
Qed.

Lemma vdi_land12 v o : Z.land v 76 = v -> o = 0 \/ o = 64 -> Z.land (Z.land v 12 + o) 76 = Z.land v 12 + o.
Proof.
  intros H O. pose proof (vdi_overflow v o H O) as V. tauto.
Qed.
Lemma land_64 v : Z.land v 64 = 0 \/ Z.land v 64 = 64.
Proof.
  assert (E : Z.land v 64 = if Z.testbit v 6 then 64 else 0).
  { apply Z.bits_inj'. intros n Hn. rewrite Z.land_spec. change 64 with (2 ^ 6) at 1. rewrite Z.pow2_bits_eqb by lia.
    destruct (6 =? n) eqn:E.
    - apply Z.eqb_eq in E. subst n. destruct (Z.testbit v 6); reflexivity.
    - rewrite andb_false_r. destruct (Z.testbit v 6); [|now rewrite Z.bits_0]. change 64 with (2 ^ 6). now rewrite Z.pow2_bits_eqb, E by lia. }
  destruct (Z.testbit v 6); lia.
Qed.

Ltac peeked limit := apply wpg_bind; apply cpu_peek_wpg with limit; [assumption|assumption|lia|assumption|]; intros v Hv; cbn [wpg].
Ltac rmwed L limit := apply wpg_bind; (eapply wpg_mono; [apply (L limit); (assumption || lia)|]);
  let s1 := fresh "s1" in intros [v s1] [Hv M]; cbn [fst snd] in Hv, M; cbn [wpg]; assert (C1 : cpu_ok s1) by apply M.

Lemma run_operation_ok limit o addr s :
  cpu_ok s -> hw_ok limit s -> 1 <= m_cycle s <= 100000 -> m_cycle s <= limit ->
  o <> O_abort -> inside addr 1 -> (writes o = true -> 0 <= addr < 65536) -> (o = O_branch -> inside (m_pc s) 1) ->
  wpg B F (run_operation o addr s) (moved limit s).
Proof.
  intros C H Hs Hl Ho Hi Hw Hb. pose proof (ok_a _ C) as Ba. pose proof (ok_x _ C) as Bx. pose proof (ok_y _ C) as By.
  destruct o; try (exfalso; apply Ho; reflexivity); cbn [writes] in Hw; try specialize (Hw eq_refl); try specialize (Hb eq_refl); cbn [run_operation].
  - peeked limit. apply moved_cpu; try assumption; try reflexivity. apply cpu_ok_load_a; [|assumption]. now apply CpuProofs.byte_lor.
  - rmwed asl_ok limit. apply moved_then with s1; try assumption; try reflexivity. apply cpu_ok_load_a; [|exact C1]. apply CpuProofs.byte_lor; [apply C1|exact Hv].
  - rmwed asl_ok limit. apply moved_then with s1; try assumption; try reflexivity. now apply cpu_ok_nz.
  - unfold take_branch. apply wpg_bind. apply wpg_mem_rd; [assumption|assumption|]. intros v Hv. cbn [wpg]. apply moved_cpu; try assumption.
    + apply cpu_ok_pc, cpu_ok_cycle, C.
    + reflexivity.
    + proj. match goal with |- context [if ?c then 1 else 2] => destruct c end; lia.
  - peeked limit. apply moved_cpu; try assumption; try reflexivity. apply cpu_ok_load_a; [|assumption]. now apply byte_land.
  - rmwed rol_ok limit. apply moved_then with s1; try assumption; try reflexivity. apply cpu_ok_load_a; [|exact C1]. apply byte_land; apply C1.
  - peeked limit. apply moved_cpu; try assumption; try reflexivity.
    destruct C. constructor; proj; try assumption.
    + exact (proj2 (proj2 (proj2 (bit_nz (m_a s) v Ba Hv)))).
    + apply vdi_land12; [assumption|apply land_64].
  - rmwed rol_ok limit. apply moved_then with s1; try assumption; try reflexivity. now apply cpu_ok_nz.
  - peeked limit. apply moved_cpu; try assumption; try reflexivity. apply cpu_ok_load_a; [|assumption]. now apply byte_lxor.
  - rmwed lsr_ok limit. apply moved_then with s1; try assumption; try reflexivity. apply cpu_ok_load_a; [|exact C1]. apply byte_lxor; [apply C1|exact Hv].
  - rmwed lsr_ok limit. apply moved_then with s1; try assumption; try reflexivity. now apply cpu_ok_nz.
  - peeked limit. destruct (view_adc v s C Hv) as (_ & A1 & A2 & A3 & _). apply moved_cpu; try assumption; lia.
  - rmwed ror_ok limit. destruct (view_adc v s1 C1 Hv) as (_ & A1 & A2 & A3 & _). now apply moved_then with s1.
  - rmwed ror_ok limit. apply moved_then with s1; try assumption; try reflexivity. now apply cpu_ok_nz.
  - apply wpg_bind. apply wpg_mem_rd; [assumption|right; lia|]. intros lo Hlo. rewrite land_255.
    apply wpg_bind. apply wpg_mem_rd; [assumption| |].
    { right. destruct ((addr + 1) mod 256 =? 0) eqn:E; lia. }
    intros hi Hhi. cbn [wpg]. apply moved_cpu; try assumption; [now apply cpu_ok_pc|reflexivity|proj; lia].
  - eapply wpg_mono; [now apply (cpu_poke_wpg limit); unfold short; try lia|]. intros s1 (K & T & _). now split.
  - eapply wpg_mono; [apply (cpu_poke_wpg limit); unfold short; try assumption; try lia; now apply byte_land|]. intros s1 (K & T & _). now split.
  - eapply wpg_mono; [now apply (cpu_poke_wpg limit); unfold short; try lia|]. intros s1 (K & T & _). now split.
  - eapply wpg_mono; [now apply (cpu_poke_wpg limit); unfold short; try lia|]. intros s1 (K & T & _). now split.
  - peeked limit. apply moved_cpu; try assumption; try reflexivity. now apply cpu_ok_load_y.
  - peeked limit. apply moved_cpu; try assumption; try reflexivity. now apply cpu_ok_load_a.
  - peeked limit. apply moved_cpu; try assumption; try reflexivity. now apply cpu_ok_load_x.
  - peeked limit. apply moved_cpu; try assumption; try reflexivity. apply cpu_ok_load_x; [assumption|]. now apply cpu_ok_a.
  - peeked limit. assert (L : byte (Z.land (m_s s) v)) by (apply byte_land, C).
    apply moved_cpu; try assumption; try reflexivity. apply cpu_ok_load_x; [assumption|]. apply cpu_ok_a; [assumption|]. now apply cpu_ok_s.
  - peeked limit. apply moved_cpu; try assumption; try reflexivity. now apply cpu_ok_compare.
  - peeked limit. apply moved_cpu; try assumption; try reflexivity. now apply cpu_ok_compare.
  - rmwed dec_ok limit. apply moved_then with s1; try assumption; try reflexivity. now apply cpu_ok_compare.
  - rmwed dec_ok limit. apply moved_then with s1; try assumption; try reflexivity. now apply cpu_ok_nz.
  - peeked limit. apply moved_cpu; try assumption; try reflexivity. now apply cpu_ok_compare.
  - peeked limit. destruct (view_sbc v s C Hv) as (_ & A1 & A2 & A3 & _). apply moved_cpu; try assumption; lia.
  - rmwed inc_ok limit. destruct (view_sbc v s1 C1 Hv) as (_ & A1 & A2 & A3 & _). now apply moved_then with s1.
  - rmwed inc_ok limit. apply moved_then with s1; try assumption; try reflexivity. now apply cpu_ok_nz.
Qed.

Lemma inside_next a n : inside a (n + 1) -> 0 <= n -> inside (a + 1) n.
Proof. intros [H|H] Hn; [now left|right; lia]. Qed.
Lemma inside_less a n m : inside a n -> m <= n -> inside a m.
Proof. intros [H|H] Hn; [now left|right; lia]. Qed.

Definition is_branch (m : mode) : bool :=
  match m with M_bpl | M_bmi | M_bvc | M_bvs | M_bcc | M_bcs | M_bne | M_beq => true | _ => false end.

(* after the first switch: either the instruction is complete, or an operand address is known *)
Definition switched (limit : Z) (m : mode) (s : asap) (r : first_result) : Prop :=
  match r with
  | Done s' => keeps limit s s' /\ (m_cycle s <= m_cycle s' \/ (m = M_cim /\ m_cycle s' = m_nextEventCycle s))
  | Operand addr s' => cpu_ok s' /\ rest s' = rest s /\ m_cycle s <= m_cycle s' <= m_cycle s + 1 /\
      inside addr 1 /\ (m <> M_imm -> 0 <= addr < 65536) /\ (is_branch m = true -> m_pc s' = m_pc s)
  end.

Lemma switched_done limit m s s' : moved limit s s' -> wpg B F (done s') (switched limit m s).
Proof. intros [K L]. cbn [wpg done]. split; [exact K|now left]. Qed.
Lemma switched_cpu limit m s s' : hw_ok limit s -> cpu_ok s' -> rest s' = rest s -> m_cycle s <= m_cycle s' -> wpg B F (done s') (switched limit m s).
Proof. intros. apply switched_done. now apply moved_cpu. Qed.
Lemma switched_operand limit m s s' addr : cpu_ok s' -> rest s' = rest s -> m_cycle s <= m_cycle s' <= m_cycle s + 1 ->
  0 <= addr < 65536 -> (is_branch m = true -> m_pc s' = m_pc s) -> wpg B F (Ok (Operand addr s')) (switched limit m s).
Proof. intros. cbn [wpg switched]. repeat (split; [assumption|]). split; [right; lia|]. split; [intros _; assumption|assumption]. Qed.

Lemma branch_if_ok limit m s (b : bool) : cpu_ok s -> hw_ok limit s -> wpg B F (branch_if b s) (switched limit m s).
Proof.
  intros C H. unfold branch_if. destruct b.
  - apply switched_operand; [exact C|reflexivity|lia|lia|reflexivity].
  - apply switched_cpu; [exact H|now apply cpu_ok_skip|reflexivity|proj; lia].
Qed.

Lemma check_irq_wpg limit s : cpu_ok s -> hw_ok limit s -> wpg B F (check_irq s) (fun s' => keeps limit s s' /\ rest s' = rest s /\ m_cycle s <= m_cycle s' <= m_cycle s + 7).
Proof.
  intros C H. unfold check_irq. destruct (_ && _).
  - destruct (execute_irq_view false _ (cpu_ok_cycle (m_cycle s + 7) s C)) as (s1 & E1 & _ & C1 & R1 & T1).
    cbv iota in E1. rewrite E1. cbn [wpg]. split; [|split; [exact R1|]].
    + apply keeps_cpu; assumption.
    + rewrite T1. proj. lia.
  - cbn [wpg]. split; [now apply keeps_refl|]. split; [reflexivity|lia].
Qed.

Lemma abs_indexed_ok limit m index (page : bool) s : cpu_ok s -> hw_ok limit s -> inside (m_pc s) 2 -> is_branch m = false ->
  wpg B F (abs_indexed index page s) (switched limit m s).
Proof.
  intros C H I E. unfold abs_indexed. apply wpg_bind. apply wpg_fetch; [exact C|apply inside_less with 2; [exact I|lia]|]. intros lo Hlo.
  set (s1 := if page && _ then _ else _).
  assert (S1 : cpu_ok s1 /\ rest s1 = rest s /\ m_cycle s <= m_cycle s1 <= m_cycle s + 1 /\ m_pc s1 = m_pc s + 1).
  { unfold s1. destruct (page && _); (split; [destruct C; constructor; assumption|split; [reflexivity|split; [proj; lia|reflexivity]]]). }
  clearbody s1. destruct S1 as (S1 & S2 & S3 & S4).
  apply wpg_bind. apply wpg_fetch; [exact S1|rewrite S4; now apply inside_next|]. intros hi Hhi.
  apply switched_operand; [now apply cpu_ok_skip|exact S2|proj; lia|arith; lia|congruence].
Qed.

Lemma shx_ok limit addr data s : cpu_ok s -> hw_ok limit s -> short (m_cycle s) -> m_cycle s <= limit -> inside (m_pc s) 2 -> byte addr -> byte data ->
  wpg B F (shx addr data s) (moved limit s).
Proof.
  intros C H Hs Hl I Ha Hd. unfold shx. apply wpg_bind. apply wpg_fetch; [exact C|apply inside_less with 2; [exact I|lia]|]. intros lo Hlo.
  apply wpg_bind. apply wpg_fetch; [now apply cpu_ok_skip|proj; now apply inside_next|]. intros hi Hhi.
  pose proof (byte_land data (hi + 1) Hd) as L. set (d := Z.land data (hi + 1)) in *. clearbody d.
  eapply wpg_mono.
  { apply (cpu_poke_wpg limit (skip 1 (skip 1 s))); [now apply cpu_ok_skip, cpu_ok_skip|apply hw_rest with s; [reflexivity|exact H]|exact Hs|exact Hl|exact L|].
    arith. unfold byte in *. destruct (256 <=? addr + lo) eqn:E; lia. }
  intros s1 (K & T & _). split; [|exact T]. apply keeps_trans with (skip 1 (skip 1 s)); [|exact K].
  apply keeps_cpu; [exact H|now apply cpu_ok_skip, cpu_ok_skip|reflexivity].
Qed.

Lemma zp_word_ok s zp (P : Z -> Prop) : cpu_ok s -> byte zp -> (forall v, 0 <= v < 65536 -> P v) -> wpg B F (zp_word s zp) P.
Proof.
  intros C Hz HP. unfold byte in Hz. unfold zp_word. apply wpg_bind. apply wpg_mem_rd; [exact C|right; lia|]. intros lo Hlo.
  apply wpg_bind. apply wpg_mem_rd; [exact C|right; rewrite land_255; lia|]. intros hi Hhi. cbn [wpg]. apply HP. arith. unfold byte in *. lia.
Qed.

Lemma push_wpg v s (P : asap -> Prop) : cpu_ok s ->
  (forall s', cpu_ok s' -> same_but_stack s s' -> P s') -> wpg B F (push v s) P.
Proof. intros C HP. destruct (push_view v s C) as (s1 & E & _ & C1 & S1). rewrite E. cbn [wpg]. now apply HP. Qed.
Lemma push_pc_wpg s (P : asap -> Prop) : cpu_ok s ->
  (forall s', cpu_ok s' -> same_but_stack s s' -> P s') -> wpg B F (push_pc s) P.
Proof. intros C HP. destruct (push_pc_view s C) as (s1 & E & _ & C1 & S1). rewrite E. cbn [wpg]. now apply HP. Qed.
Lemma pull_wpg s (P : Z * asap -> Prop) : cpu_ok s ->
  (forall v s', byte v -> cpu_ok s' -> same_but_stack s s' -> P (v, s')) -> wpg B F (pull s) P.
Proof. intros C HP. destruct (pull_view s C) as (v & s1 & E & _ & Hv & C1 & S1). rewrite E. cbn [wpg]. now apply HP. Qed.
Lemma pull_flags_wpg s (P : asap -> Prop) : cpu_ok s ->
  (forall s', cpu_ok s' -> rest s' = rest s -> m_cycle s' = m_cycle s -> P s') -> wpg B F (pull_flags s) P.
Proof. intros C HP. destruct (pull_flags_view s C) as (s1 & E & _ & C1 & S1 & S2 & _). rewrite E. cbn [wpg]. now apply HP. Qed.

Lemma vdi_cases v : Z.land v 76 = v ->
  Z.land (Z.land v 72) 76 = Z.land v 72 /\ Z.land (Z.lor v 4) 76 = Z.lor v 4 /\ Z.land (Z.land v 12) 76 = Z.land v 12 /\
  Z.land (Z.land v 68) 76 = Z.land v 68 /\ Z.land (Z.lor v 8) 76 = Z.lor v 8.
Proof.
  intros H.
  assert (P : (Z.land (Z.land v 72) 76 =? Z.land v 72) && (Z.land (Z.lor v 4) 76 =? Z.lor v 4) && (Z.land (Z.land v 12) 76 =? Z.land v 12) &&
     (Z.land (Z.land v 68) 76 =? Z.land v 68) && (Z.land (Z.lor v 8) 76 =? Z.lor v 8) = true).
  { revert v H. apply vdi_sweep. vm_compute. reflexivity. }
  rewrite !andb_true_iff, !Z.eqb_eq in P. tauto.
Qed.

Ltac fetches C I := apply wpg_bind; apply wpg_fetch; [exact C|apply inside_less with 2; [exact I|lia]|]; let v := fresh "v" in let Hv := fresh "Hv" in intros v Hv.

Lemma run_mode_ok limit m s :
  cpu_ok s -> hw_ok limit s -> 0 <= m_cycle s <= 99999 -> m_cycle s + 1 <= limit -> m <> M_abort -> inside (m_pc s) 2 ->
  wpg B F (run_mode m s) (switched limit m s).
Proof.
  intros C H Hs Hl Hm I. pose proof (ok_a _ C) as Ba. pose proof (ok_x _ C) as Bx. pose proof (ok_y _ C) as By. pose proof (ok_s _ C) as Bs.
  pose proof (ok_c _ C) as Bc. pose proof (ok_nz _ C) as Bn. destruct (vdi_cases _ (ok_vdi _ C)) as (V1 & V2 & V3 & V4 & V5).
  destruct m; try (exfalso; apply Hm; reflexivity); cbn [run_mode];
    try (apply branch_if_ok; assumption); try (apply abs_indexed_ok; (assumption || reflexivity));
    try (apply switched_cpu; [exact H|destruct C; constructor; proj; assumption|reflexivity|proj; lia]).
  - (* brk *) destruct (execute_irq_view true _ (cpu_ok_skip 1 s C)) as (s1 & E1 & _ & C1 & R1 & T1). cbv iota in E1. rewrite E1. cbn [bind].
    apply switched_cpu; [exact H|exact C1|exact R1|rewrite T1; proj; lia].
  - fetches C I. apply wpg_bind. apply zp_word_ok; [now apply cpu_ok_skip|rewrite land_255; apply byte_mod|]. intros a Ha.
    apply switched_operand; [now apply cpu_ok_skip|reflexivity|proj; lia|exact Ha|discriminate].
  - (* cim *) cbn [wpg done switched]. split; [|now right]. apply keeps_cpu; [exact H|apply cpu_ok_cycle, cpu_ok_skip, C|reflexivity].
  - fetches C I. apply switched_operand; [now apply cpu_ok_skip|reflexivity|proj; lia|unfold byte in *; lia|discriminate].
  - destruct (push_flags_view true s C) as (s1 & E1 & _ & C1 & S1). cbv iota in E1. rewrite E1. cbn [bind].
    destruct S1 as (R1 & T1 & _). apply switched_cpu; [exact H|exact C1|exact R1|lia].
  - (* imm *) cbn [wpg switched]. split; [now apply cpu_ok_skip|]. split; [reflexivity|]. split; [proj; lia|].
    split; [apply inside_less with 2; [exact I|lia]|]. split; [congruence|discriminate].
  - apply switched_cpu; [exact H| |reflexivity|unfold load_a; proj; lia]. apply cpu_ok_load_a; [rewrite land_255; apply byte_mod|].
    apply cpu_ok_c; [arith; unfold byte in *; lia|exact C].
  - (* anc *) fetches C I. apply switched_cpu; [exact H| |reflexivity|unfold load_a; proj; lia]. pose proof (byte_land (m_a s) v Ba) as L. 
    apply cpu_ok_c; [unfold load_a; proj; arith; unfold byte in L; lia|]. apply cpu_ok_load_a; [exact L|now apply cpu_ok_skip].
  - (* abs *) unfold fetch_word. apply wpg_bind, wpg_bind. apply wpg_fetch; [exact C|apply inside_less with 2; [exact I|lia]|]. intros lo Hlo.
    apply wpg_bind. apply wpg_fetch; [now apply cpu_ok_skip|proj; now apply inside_next|]. intros hi Hhi. cbn [wpg].
    apply switched_operand; [now apply cpu_ok_skip, cpu_ok_skip|reflexivity|proj; lia|arith; unfold byte in *; lia|discriminate].
  - (* indy_read *) fetches C I. assert (C1 : cpu_ok (skip 1 s)) by now apply cpu_ok_skip. unfold byte in Hv.
    apply wpg_bind. apply wpg_mem_rd; [exact C1|right; lia|]. intros lo Hlo.
    match goal with |- context [if ?c then add_cycles 1 ?t else ?t] => set (s1 := if c then add_cycles 1 t else t) end.
    assert (S1 : cpu_ok s1 /\ rest s1 = rest s /\ m_cycle s <= m_cycle s1 <= m_cycle s + 1).
    { unfold s1. destruct (256 <=? _); (split; [destruct C; constructor; assumption|split; [reflexivity|proj; lia]]). }
    clearbody s1. destruct S1 as (S1 & S2 & S3).
    apply wpg_bind. apply wpg_mem_rd; [exact S1|right; rewrite land_255; lia|]. intros hi Hhi.
    apply switched_operand; [exact S1|exact S2|exact S3|arith; lia|discriminate].
  - (* indy *) fetches C I. apply wpg_bind. apply zp_word_ok; [now apply cpu_ok_skip|exact Hv|]. intros w Hw.
    apply switched_operand; [now apply cpu_ok_skip|reflexivity|proj; lia|arith; lia|discriminate].
  - fetches C I. apply switched_operand; [now apply cpu_ok_skip|reflexivity|proj; lia|arith; lia|discriminate].
  - apply switched_cpu; [exact H|apply cpu_ok_c; [lia|exact C]|reflexivity|proj; lia].
  - (* nop_absx *) apply wpg_bind. apply wpg_mem_rd; [exact C|apply inside_less with 2; [exact I|lia]|]. intros v Hv.
    destruct (256 <=? v + m_x s); apply switched_cpu; try exact H; try reflexivity; try (proj; lia); destruct C; constructor; assumption.
  - (* jsr *) fetches C I. apply wpg_bind. apply push_pc_wpg; [now apply cpu_ok_skip|]. intros s1 C1 S1. destruct S1 as (R1 & T1 & P1 & _).
    apply wpg_bind. apply wpg_mem_rd; [exact C1|rewrite P1; proj; now apply inside_next|]. intros hi Hhi.
    apply switched_cpu; [exact H|now apply cpu_ok_pc|exact R1|proj; rewrite T1; proj; lia].
  - (* plp *) apply wpg_bind. apply pull_flags_wpg; [exact C|]. intros s1 C1 R1 T1. apply wpg_bind.
    eapply wpg_mono; [apply (check_irq_wpg limit); [exact C1|now apply hw_rest with s]|]. intros s2 (K & R2 & T2).
    apply switched_cpu; [exact H|apply K|congruence|lia].
  - (* rol a *) apply switched_cpu; [exact H| |reflexivity|unfold load_a; proj; lia]. apply cpu_ok_load_a; [rewrite land_255; apply byte_mod|].
    apply cpu_ok_c; [arith; unfold byte in *; lia|exact C].
  - apply switched_cpu; [exact H|apply cpu_ok_c; [lia|exact C]|reflexivity|proj; lia].
  - (* rti *) apply wpg_bind. apply pull_flags_wpg; [exact C|]. intros s1 C1 R1 T1.
    apply wpg_bind. apply pull_wpg; [exact C1|]. intros lo s2 Hlo C2 (R2 & T2 & _).
    apply wpg_bind. apply pull_wpg; [exact C2|]. intros hi s3 Hhi C3 (R3 & T3 & _).
    assert (R : rest s3 = rest s) by congruence.
    apply wpg_bind. eapply wpg_mono; [apply (check_irq_wpg limit); [now apply cpu_ok_pc|now apply hw_rest with s]|].
    intros s4 (K & R4 & T4). apply switched_cpu; [exact H|apply K|rewrite R4; exact R|cbn [m_cycle set_m_pc set_m_vdi] in T4; lia].
  - (* pha *) apply wpg_bind. apply push_wpg; [exact C|]. intros s1 C1 (R1 & T1 & _). apply switched_cpu; [exact H|exact C1|exact R1|lia].
  - (* lsr a *) apply switched_cpu; [exact H| |reflexivity|unfold load_a; proj; lia]. apply cpu_ok_load_a; [arith; now apply byte_shr1|].
    apply cpu_ok_c; [arith; lia|exact C].
  - (* asr *) fetches C I. pose proof (byte_land (m_a s) v Ba) as L.
    apply switched_cpu; [exact H| |reflexivity|unfold load_a; proj; lia]. apply cpu_ok_load_a; [arith; now apply byte_shr1|].
    apply cpu_ok_c; [arith; lia|now apply cpu_ok_skip].
  - (* jmp *) fetches C I. apply wpg_bind. apply wpg_mem_rd; [now apply cpu_ok_skip|proj; now apply inside_next|]. intros hi Hhi.
    apply switched_cpu; [exact H|now apply cpu_ok_pc, cpu_ok_skip|reflexivity|proj; lia].
  - (* cli *) assert (C1 : cpu_ok (set_m_vdi (Z.land (m_vdi s) 72) s)) by now apply cpu_ok_vdi.
    apply wpg_bind. eapply wpg_mono; [apply (check_irq_wpg limit); [exact C1|apply hw_rest with s; [reflexivity|exact H]]|]. intros s2 (K & R2 & T2).
    apply switched_cpu; [exact H|apply K|exact R2|cbn [m_cycle set_m_pc set_m_vdi] in T2; lia].
  - (* rts *) apply wpg_bind. apply pull_wpg; [exact C|]. intros lo s2 Hlo C2 (R2 & T2 & _).
    apply wpg_bind. apply pull_wpg; [exact C2|]. intros hi s3 Hhi C3 (R3 & T3 & _).
    apply switched_cpu; [exact H|now apply cpu_ok_pc|proj; transitivity (rest s3); [reflexivity|congruence]|proj; lia].
  - (* pla *) apply wpg_bind. apply pull_wpg; [exact C|]. intros v s2 Hv C2 (R2 & T2 & _).
    apply switched_cpu; [exact H|now apply cpu_ok_load_a|exact R2|unfold load_a; proj; lia].
  - (* ror a *) apply switched_cpu; [exact H| |reflexivity|unfold load_a; proj; lia]. apply cpu_ok_load_a; [arith; unfold byte in *; lia|].
    apply cpu_ok_c; [arith; lia|exact C].
  - (* arr *) fetches C I. cbv zeta. change (m_a (skip 1 s)) with (m_a s). change (m_c (skip 1 s)) with (m_c s). pose proof (byte_land (m_a s) v Ba) as L. set (d := Z.land (m_a s) v) in *. clearbody d.
    cbv zeta. set (a := Z.shiftr d 1 + Z.shiftl (m_c s) 7).
    assert (A : byte a) by (unfold a; arith; unfold byte in *; lia). clearbody a.
    match goal with |- context [set_m_vdi ?x (load_a a (skip 1 s))] => set (s1 := set_m_vdi x (load_a a (skip 1 s))) end.
    assert (S1 : cpu_ok s1 /\ rest s1 = rest s /\ m_cycle s1 = m_cycle s).
    { unfold s1. split; [|split; reflexivity]. apply cpu_ok_vdi; [|now apply cpu_ok_load_a, cpu_ok_skip].
      apply vdi_land12; [apply C|apply land_64]. }
    clearbody s1. destruct S1 as (S1 & S2 & S3).
    destruct (Z.land (m_vdi s1) 8 =? 0).
    { apply switched_cpu; [exact H| |exact S2|proj; lia]. apply cpu_ok_c; [arith; unfold byte in *; lia|exact S1]. }
    match goal with |- context [if 5 <=? Z.land d 15 then ?t else s1] => set (s2 := if 5 <=? Z.land d 15 then t else s1) end.
    assert (S4 : cpu_ok s2 /\ rest s2 = rest s /\ m_cycle s2 = m_cycle s).
    { unfold s2. destruct (5 <=? Z.land d 15); [|now split]. split; [|now split]. apply cpu_ok_a; [|exact S1].
      pose proof (ok_a _ S1) as A1. pose proof (byte_sweep (fun x => (0 <=? Z.land x 240) && (Z.land x 240 <=? 240)) eq_refl _ A1) as Q.
      cbv beta in Q. rewrite land_15. unfold byte. lia. }
    clearbody s2. destruct S4 as (S4 & S5 & S6).
    destruct (80 <=? d); (apply switched_cpu; [exact H| |exact S5|proj; lia]); apply cpu_ok_c; try lia; try exact S4.
    apply cpu_ok_a; [rewrite land_255; apply byte_mod|exact S4].
  - (* dey *) apply switched_cpu; [exact H|apply cpu_ok_load_y; [rewrite land_255; apply byte_mod|exact C]|reflexivity|unfold load_y; proj; lia].
  - apply switched_cpu; [exact H|now apply cpu_ok_load_a|reflexivity|unfold load_a; proj; lia].
  - (* ane *) fetches C I. pose proof (byte_land (m_a s) (Z.land (Z.lor v 239) (m_x s)) Ba) as L.
    apply switched_cpu; [exact H| |reflexivity|proj; lia]. apply cpu_ok_nz; [now apply byte_land|]. apply cpu_ok_a; [exact L|now apply cpu_ok_skip].
  - (* sha (zp),y *) fetches C I. unfold byte in Hv. assert (C1 : cpu_ok (skip 1 s)) by now apply cpu_ok_skip.
    apply wpg_bind. apply wpg_mem_rd; [exact C1|right; rewrite land_255; lia|]. intros hi Hhi.
    apply wpg_bind. apply wpg_mem_rd; [exact C1|right; lia|]. intros lo Hlo.
    assert (L : byte (Z.land (Z.land (hi + 1) (m_a s)) (m_x s))) by (rewrite (Z.land_comm (hi + 1)); now apply byte_land, byte_land).
    apply wpg_bind. eapply wpg_mono.
    { apply (cpu_poke_wpg limit (skip 1 s)); [exact C1|apply hw_rest with s; [reflexivity|exact H]|unfold short; proj; lia|proj; lia|exact L|].
      proj. set (d := Z.land (Z.land (hi + 1) (m_a s)) (m_x s)) in *. clearbody d. arith. unfold byte in *. destruct (256 <=? lo + m_y s) eqn:E; lia. }
    intros s1 (K & T & _). apply switched_done. split; [|exact T]. apply keeps_trans with (skip 1 s); [|exact K]. apply keeps_cpu; [exact H|exact C1|reflexivity].
  - fetches C I. apply switched_operand; [now apply cpu_ok_skip|reflexivity|proj; lia|arith; lia|discriminate].
  - apply switched_cpu; [exact H|now apply cpu_ok_load_a|reflexivity|unfold load_a; proj; lia].
  - (* shs *) pose proof (byte_land (m_a s) (m_x s) Ba) as L. apply wpg_bind. eapply wpg_mono.
    { apply (shx_ok limit); [now apply cpu_ok_s|apply hw_rest with s; [reflexivity|exact H]|unfold short; proj; lia|proj; lia|exact I|exact By|exact L]. }
    intros s1 M. apply switched_done. apply moved_trans with (set_m_s (Z.land (m_a s) (m_x s)) s); [|exact M].
    apply moved_cpu; [exact H|now apply cpu_ok_s|reflexivity|proj; lia].
  - apply wpg_bind. eapply wpg_mono; [now apply (shx_ok limit); unfold short; try lia|]. intros s1 M. now apply switched_done.
  - apply wpg_bind. eapply wpg_mono; [now apply (shx_ok limit); unfold short; try lia|]. intros s1 M. now apply switched_done.
  - pose proof (byte_land (m_a s) (m_x s) Ba) as L. apply wpg_bind. eapply wpg_mono; [now apply (shx_ok limit); unfold short; try lia|].
    intros s1 M. now apply switched_done.
  - apply switched_cpu; [exact H|now apply cpu_ok_load_y|reflexivity|unfold load_y; proj; lia].
  - apply switched_cpu; [exact H|now apply cpu_ok_load_x|reflexivity|unfold load_x; proj; lia].
  - (* anx *) fetches C I. pose proof (byte_land (m_a s) v Ba) as L. apply switched_cpu; [exact H| |reflexivity|unfold load_x; proj; lia].
    apply cpu_ok_load_x; [exact L|]. apply cpu_ok_a; [exact L|now apply cpu_ok_skip].
  - apply switched_cpu; [exact H|now apply cpu_ok_load_x|reflexivity|unfold load_x; proj; lia].
  - apply switched_cpu; [exact H|apply cpu_ok_load_y; [rewrite land_255; apply byte_mod|exact C]|reflexivity|unfold load_y; proj; lia].
  - apply switched_cpu; [exact H|apply cpu_ok_load_x; [rewrite land_255; apply byte_mod|exact C]|reflexivity|unfold load_x; proj; lia].
  - (* sbx *) fetches C I. apply switched_cpu; [exact H| |reflexivity|unfold load_x; proj; lia].
    apply cpu_ok_load_x; [rewrite land_255; apply byte_mod|]. apply cpu_ok_c; [destruct (v <=? _); lia|now apply cpu_ok_skip].
  - apply switched_cpu; [exact H|apply cpu_ok_load_x; [rewrite land_255; apply byte_mod|exact C]|reflexivity|unfold load_x; proj; lia].
Qed.

Definition needs_operand (m : mode) : bool :=
  match m with
  | M_indx | M_zp | M_imm | M_abs | M_indy_read | M_indy | M_zpx | M_absy_read | M_absy | M_absx_read | M_absx | M_zpy => true
  | _ => is_branch m
  end.
Definition fits (m : mode) (o : operation) : bool :=
  match o with
  | O_abort => false
  | O_branch => is_branch m
  | _ => negb (is_branch m) && match m with M_imm => negb (writes o) | _ => true end
  end.
Definition opcode_fact (data : Z) : bool :=
  match first_switch data with M_abort => false | _ => true end &&
  (negb (needs_operand (first_switch data)) || fits (first_switch data) (second_switch data)) &&
  match get opcode_cycles data with Ok n => (2 <=? n) && (n <=? 8) | _ => false end.
Lemma opcode_facts data : byte data -> opcode_fact data = true.
Proof. apply byte_sweep. vm_compute. reflexivity. Qed.

Lemma operand_modes limit m s addr s' : cpu_ok s -> hw_ok limit s -> inside (m_pc s) 2 -> run_mode m s = Ok (Operand addr s') -> needs_operand m = true.
Proof.
  intros C H I E. destruct m; try reflexivity; cbn [run_mode] in E; exfalso; revert E; unfold done, bind;
    repeat match goal with |- context [match ?x with _ => _ end] => destruct x end; try discriminate.
Qed.

Lemma wpg_eqn {A} (m : outcome A) (P : A -> Prop) : wpg B F m P -> wpg B F m (fun x => P x /\ m = Ok x).
Proof. destruct m; cbn [wpg]; auto. Qed.

(* one instruction, whatever it is *)
Lemma execute_ok limit s : cpu_ok s -> hw_ok limit s -> 0 <= m_cycle s -> m_cycle s + 9 <= limit -> limit <= 100000 -> inside (m_pc s) 3 ->
  wpg B F (execute s) (fun s' => keeps limit s s' /\ (m_cycle s + 2 <= m_cycle s' \/ m_cycle s' = m_nextEventCycle s)).
Proof.
  intros C H H0 Hl HL I. unfold execute. apply wpg_bind. apply wpg_fetch; [exact C|apply inside_less with 3; [exact I|lia]|]. intros op Hop.
  pose proof (opcode_facts op Hop) as O. unfold opcode_fact in O. rewrite !andb_true_iff in O. destruct O as [[O1 O] N].
  destruct (get opcode_cycles op) as [n| | |]; try discriminate N. cbn [bind].
  set (s1 := add_cycles n (skip 1 s)).
  assert (C1 : cpu_ok s1) by now apply cpu_ok_cycle, cpu_ok_skip.
  assert (H1 : hw_ok limit s1) by (apply hw_rest with s; [reflexivity|exact H]).
  assert (T1 : m_cycle s1 = m_cycle s + n) by reflexivity.
  assert (P1 : m_pc s1 = m_pc s + 1) by reflexivity.
  assert (K1 : keeps limit s s1) by now apply keeps_cpu.
  assert (E1 : m_nextEventCycle s1 = m_nextEventCycle s) by reflexivity.
  clearbody s1. assert (I1 : inside (m_pc s1) 2) by (rewrite P1; now apply inside_next).
  apply wpg_bind. eapply wpg_mono.
  { apply wpg_eqn. apply (run_mode_ok limit); [exact C1|exact H1|lia|lia| |exact I1]. intros E. rewrite E in O1. discriminate O1. }
  intros r [S E]. destruct r as [s2|addr s2].
  - cbn [wpg]. destruct S as [K2 T2]. split; [now apply keeps_trans with s1|]. destruct T2 as [T2|[_ T2]]; [left; lia|right; congruence].
  - destruct S as (C2 & R2 & T2 & A1 & A2 & A3). pose proof (operand_modes limit _ _ _ _ C1 H1 I1 E) as N1. clear E. rewrite N1 in O. cbn [negb orb] in O.
    assert (K2 : keeps limit s1 s2) by now apply keeps_cpu.
    eapply wpg_mono.
    { apply (run_operation_ok limit (second_switch op) addr s2); [exact C2|apply K2|lia|lia| |exact A1| |].
      - intros E. rewrite E in O. discriminate O.
      - intros W. apply A2. intros E. rewrite E in O. destruct (second_switch op); discriminate O || discriminate W.
      - intros E. rewrite E in O. rewrite (A3 O). apply inside_less with 2; [exact I1|lia]. }
    intros s3 [K3 T3]. split; [|left; lia]. apply keeps_trans with s1; [exact K1|]. now apply keeps_trans with s2.
Qed.

(* ---- events ---- *)
Lemma check_irq_range cycle next p : 0 <= cycle -> 0 <= next -> 0 <= fst (pokey_check_irq cycle next p) <= next.
Proof.
  intros H0 H1.
  assert (G : forall i n q, 0 <= n <= next -> 0 <= fst (check_timer cycle i (n, q)) <= next).
  { intros i n q Hn. unfold check_timer. cbv zeta. destruct (_ <=? cycle) eqn:E; cbn [fst]; lia. }
  unfold pokey_check_irq.
  pose proof (G 3 next p ltac:(lia)) as L1. destruct (check_timer cycle 3 (next, p)) as [n1 p1].
  pose proof (G 1 n1 p1 L1) as L2. destruct (check_timer cycle 1 (n1, p1)) as [n2 p2].
  exact (G 0 n2 p2 L2).
Qed.

Definition tmc_ok (s : asap) : Prop := i_type (m_info s) = TMC -> inside (i_music (m_info s) + 31) 1.

Lemma cpu_ok_memory m s : byte_mem m -> cpu_ok s -> cpu_ok (set_m_memory m s).
Proof. intros H []. constructor; assumption. Qed.
Lemma call6502_cpu_ok addr s : cpu_ok s -> cpu_ok (call6502 addr s).
Proof.
  intros C. unfold call6502. apply cpu_ok_pc, cpu_ok_memory; [|exact C]. apply byte_mem_st_list; [apply C|].
  repeat constructor; unfold u8; lia.
Qed.

(* what a call of the player changes *)
Definition called (s s' : asap) : Prop :=
  cpu_ok s' /\ m_cycle s' = m_cycle s /\ m_pokeys s' = m_pokeys s /\ still s' = still s /\
  m_nextScanlineCycle s' = m_nextScanlineCycle s /\ m_nextEventCycle s' = m_nextEventCycle s.
Lemma called_rest s s' : cpu_ok s' -> rest s' = rest s -> m_cycle s' = m_cycle s -> called s s'.
Proof. unfold called, rest. intros C R T. pose proof (still_rest _ _ R). injection R. intros. repeat split; try assumption. all: apply C. Qed.
Lemma called_6502 addr s : cpu_ok s -> called s (call6502 addr s).
Proof. intros C. split; [now apply call6502_cpu_ok|]. repeat split. Qed.

Lemma call6502_player_ok s : cpu_ok s -> tmc_ok s -> wpg B F (call6502_player s) (called s).
Proof.
  intros C T. unfold call6502_player. cbv zeta. unfold tmc_ok in T.
  destruct (i_type (m_info s)); try (cbn [wpg]; now apply called_6502).
  - (* SAP_D *) unfold call_player_d. destruct (0 <=? i_player (m_info s)); [|cbn [wpg]; now apply called_rest].
    apply wpg_bind. apply push_pc_wpg; [exact C|]. intros s1 C1 (R1 & T1 & _). cbn [wpg].
    apply called_rest; [|exact R1|exact T1]. apply cpu_ok_pc, cpu_ok_memory; [|exact C1].
    apply byte_mem_st_list; [apply C1|]. repeat constructor; unfold u8; lia.
  - (* SAP_S *) cbn [wpg]. apply called_rest; [|reflexivity|reflexivity]. unfold call_player_s. apply cpu_ok_memory; [|exact C].
    assert (M : byte_mem (st (m_memory s) 69 (u8 (ld (m_memory s) 69 - 1)))) by (apply byte_mem_st; [apply C|apply u8_is_byte]).
    cbv zeta. destruct (_ =? 0); [|exact M]. apply byte_mem_st; [exact M|apply u8_is_byte].
  - (* TMC *) set (s1 := set_m_tmcPerFrameCounter _ s).
    assert (C1 : cpu_ok s1) by (destruct C; constructor; assumption).
    assert (K : forall s2 a, cpu_ok s2 -> called s s2 -> called s (call6502 a s2)).
    { intros s2 a C2 (_ & Q). split; [now apply call6502_cpu_ok|exact Q]. }
    destruct (_ <=? 0).
    + apply wpg_bind. apply wpg_mem_rd; [exact C1|now apply T|]. intros v _. cbn [wpg].
      assert (C2 : cpu_ok (set_m_tmcPerFrameCounter v s1)) by (destruct C1; constructor; assumption).
      apply K; [exact C2|]. split; [exact C2|]. repeat split.
    + cbn [wpg]. apply K; [exact C1|]. split; [exact C1|]. repeat split.
Qed.

(* after an event: either a scan line has begun, or the next event lies in the future *)
Definition handled (limit : Z) (s s' : asap) : Prop :=
  cpu_ok s' /\ hw_ok limit s' /\ still s' = still s /\ m_cycle s <= m_cycle s' <= m_cycle s + 9 /\
  ((m_nextScanlineCycle s <= m_cycle s /\ m_nextScanlineCycle s' = m_nextScanlineCycle s + 114) \/
   (m_nextScanlineCycle s' = m_nextScanlineCycle s /\ m_cycle s' < m_nextEventCycle s')).

Lemma handle_event_ok limit s : cpu_ok s -> hw_ok limit s -> tmc_ok s -> 0 <= m_cycle s -> wpg B F (handle_event s) (handled limit s).
Proof.
  intros C H T H0. unfold handle_event. pose proof H as [H1 H2 H3].
  set (Q := fun s1 : asap => cpu_ok s1 /\ m_pokeys s1 = m_pokeys s /\ still s1 = still s /\ m_cycle s <= m_cycle s1 <= m_cycle s + 9 /\
     ((m_nextScanlineCycle s <= m_cycle s /\ m_nextScanlineCycle s1 = m_nextScanlineCycle s + 114) \/
      (m_cycle s < m_nextScanlineCycle s /\ m_nextScanlineCycle s1 = m_nextScanlineCycle s /\ m_cycle s1 = m_cycle s))).
  apply wpg_bind. apply (wpg_mono B F _ Q).
  { destruct (m_nextScanlineCycle s <=? m_cycle s) eqn:E.
    - set (s1 := if _ <? 50 then _ else s).
      assert (S1 : cpu_ok s1 /\ m_pokeys s1 = m_pokeys s /\ still s1 = still s /\ m_nextScanlineCycle s1 = m_nextScanlineCycle s /\
        m_cycle s <= m_cycle s1 <= m_cycle s + 9).
      { unfold s1. destruct (_ <? 50); [split; [now apply cpu_ok_cycle|]; repeat split; proj; lia|]. split; [exact C|]. repeat split; lia. }
      clearbody s1. destruct S1 as (S1 & S2 & S3 & S4 & S5). cbv zeta. rewrite S4.
      set (s2 := set_m_nextScanlineCycle (m_nextScanlineCycle s + 114) s1).
      assert (Q2 : Q s2).
      { split; [destruct S1; constructor; assumption|]. split; [exact S2|]. split; [exact S3|]. split; [exact S5|]. left. split; [lia|reflexivity]. }
      clearbody s2. destruct (m_nextPlayerCycle s2 <=? m_cycle s2); [|exact Q2].
      destruct Q2 as (A1 & A2 & A3 & A4 & A5).
      apply wpg_bind. eapply wpg_mono; [apply call6502_player_ok; [exact A1|unfold tmc_ok; rewrite (still_info _ _ A3); exact T]|].
      intros s3 (B1 & B2 & B3 & B4 & B5 & _). cbn [wpg]. split; [destruct B1; constructor; assumption|].
      change (still (set_m_nextPlayerCycle _ s3)) with (still s3). cbn [m_pokeys m_info m_cycle m_nextScanlineCycle set_m_nextPlayerCycle]. rewrite B2, B3, B4, B5. now split.
    - cbn [wpg]. split; [exact C|]. split; [reflexivity|]. split; [reflexivity|]. split; [lia|]. right. split; [lia|]. now split. }
  intros s1 (A1 & A2 & A3 & A4 & A5). cbv zeta. rewrite A2.
  pose proof (check_irq_ok B Sz (m_pokeys s) limit (m_cycle s1) (m_nextScanlineCycle s1) _ H1) as L1.
  pose proof (check_irq_range (m_cycle s1) (m_nextScanlineCycle s1) (pp_basePokey (m_pokeys s)) ltac:(lia) ltac:(lia)) as R1.
  pose proof (check_irq_next (m_cycle s1) (m_nextScanlineCycle s1) (pp_basePokey (m_pokeys s))) as N1.
  destruct (pokey_check_irq (m_cycle s1) (m_nextScanlineCycle s1) (pp_basePokey (m_pokeys s))) as [n1 p1]. cbn [fst snd] in *.
  pose proof (check_irq_ok B Sz (m_pokeys s) limit (m_cycle s1) n1 _ H2) as L2.
  pose proof (check_irq_range (m_cycle s1) n1 (pp_extraPokey (m_pokeys s)) ltac:(lia) ltac:(lia)) as R2.
  pose proof (check_irq_next (m_cycle s1) n1 (pp_extraPokey (m_pokeys s))) as N2.
  destruct (pokey_check_irq (m_cycle s1) n1 (pp_extraPokey (m_pokeys s))) as [n2 p2]. cbn [fst snd] in *. cbn [wpg].
  split; [destruct A1; constructor; assumption|]. split; [|split; [unfold still in *; rewrite <- A3, A2; reflexivity|split; [exact A4|]]].
  - constructor; [| |cbn [m_nextEventCycle m_nextScanlineCycle set_m_nextEventCycle set_m_pokeys]; lia].
    + apply live_pair with (m_pokeys s); [reflexivity|reflexivity|exact L1].
    + apply live_pair with (m_pokeys s); [reflexivity|reflexivity|exact L2].
  - cbn [m_nextEventCycle m_nextScanlineCycle m_cycle set_m_nextEventCycle set_m_pokeys].
    destruct A5 as [A5|(A5 & A6 & A7)]; [left; exact A5|right]. split; [exact A6|]. lia.
Qed.

(* ---- a frame ---- *)
Record running (cycleLimit : Z) (s0 s : asap) : Prop := mkRunning {
  rn_cpu : cpu_ok s;
  rn_hw : hw_ok (cycleLimit + 24) s;
  rn_still : still s = still s0;
  rn_cycle : 0 <= m_cycle s;
  rn_scan : m_nextScanlineCycle s <= cycleLimit + 114
}.

(* what happens before an instruction *)
Lemma poll_ok cycleLimit s0 s : tmc_ok s0 -> running cycleLimit s0 s -> m_cycle s < cycleLimit ->
  wpg B F (poll_event s) (fun s' => running cycleLimit s0 s' /\ m_cycle s <= m_cycle s' <= m_cycle s + 16 /\
    ((m_nextScanlineCycle s' = m_nextScanlineCycle s + 114) \/
     (m_nextScanlineCycle s' = m_nextScanlineCycle s /\ m_cycle s < m_nextEventCycle s'))).
Proof.
  intros T [R1 R2 R3 R4 R5] Hc. unfold poll_event. destruct (m_nextEventCycle s <=? m_cycle s) eqn:E.
  - apply wpg_bind. eapply wpg_mono; [apply (handle_event_ok (cycleLimit + 24)); try assumption; unfold tmc_ok; now rewrite (still_info _ _ R3)|].
    intros s1 (A1 & A2 & A3 & A4 & A5).
    eapply wpg_mono; [apply (check_irq_wpg (cycleLimit + 24)); assumption|]. intros s2 ((K1 & K2 & K3 & K4) & RR & T2).
    assert (N : m_nextEventCycle s2 = m_nextEventCycle s1) by (unfold rest in RR; injection RR; intros; assumption).
    split; [constructor; [exact K1|exact K2|congruence|lia|lia]|]. split; [lia|]. rewrite K4, N. destruct A5 as [A5|A5]; [left; lia|right; lia].
  - cbn [wpg]. split; [now constructor|]. split; [lia|]. right. split; [reflexivity|lia].
Qed.

Lemma step_ok cycleLimit s0 s : tmc_ok s0 -> cycleLimit + 24 <= 100000 -> running cycleLimit s0 s -> m_cycle s < cycleLimit ->
  (forall s1, poll_event s = Ok s1 -> inside (m_pc s1) 3) ->
  wpg B F (s1 <- poll_event s ;; execute s1) (fun s' => running cycleLimit s0 s' /\
    (m_nextScanlineCycle s' = m_nextScanlineCycle s + 114 \/
     (m_nextScanlineCycle s' = m_nextScanlineCycle s /\ m_cycle s < m_cycle s'))).
Proof.
  intros T HL R Hc I. apply wpg_bind. eapply wpg_mono; [apply wpg_eqn; now apply (poll_ok cycleLimit s0)|].
  intros s1 [([R1 R2 R3 R4 R5] & T1 & P1) E]. specialize (I s1 E).
  eapply wpg_mono; [apply (execute_ok (cycleLimit + 24)); try assumption; lia|]. intros s2 ((K1 & K2 & K3 & K4) & T2).
  pose proof (hw_event _ _ R2) as V. split; [constructor; [exact K1|exact K2|congruence|lia|lia]|].
  rewrite K4. destruct P1 as [P1|[P1 P2]]; [left; exact P1|right]. split; [exact P1|]. lia.
Qed.

(* the whole frame terminates: every step begins a scan line or advances the clock *)
Lemma cpu_do_frame_ok (R : asap -> Prop) cycleLimit s0 : tmc_ok s0 -> 0 <= cycleLimit <= 99976 ->
  (forall s s1, R s -> m_cycle s < cycleLimit -> poll_event s = Ok s1 -> inside (m_pc s1) 3) ->
  (forall s s1 s2, R s -> m_cycle s < cycleLimit -> poll_event s = Ok s1 -> execute s1 = Ok s2 -> R s2) ->
  forall s, R s -> running cycleLimit s0 s -> 0 <= m_nextScanlineCycle s ->
  wpg B F (cpu_do_frame cycleLimit s) (fun s' => R s' /\ running cycleLimit s0 s' /\ cycleLimit <= m_cycle s').
Proof.
  intros T HL RI RS s HR HS H0. unfold cpu_do_frame.
  set (K := cycleLimit + cycleLimit * (cycleLimit + 114) + 1).
  set (m := fun s => if m_cycle s <? cycleLimit then K - (m_cycle s + cycleLimit * m_nextScanlineCycle s) else 0).
  assert (M0 : forall s, running cycleLimit s0 s -> 0 <= m s /\ (m_cycle s < cycleLimit -> 0 < m s)).
  { intros t [R1 R2 R3 R4 R5]. unfold m, K. destruct (m_cycle t <? cycleLimit) eqn:E; [|lia]. nia. }
  apply loopZ_wpg with (I := fun s => R s /\ running cycleLimit s0 s /\ 0 <= m_nextScanlineCycle s) (m := m).
  - intros t (_ & Rt & _). apply M0, Rt.
  - intros t (Rt & St & Nt). unfold cpu_step. destruct (m_cycle t <? cycleLimit) eqn:E.
    + pose proof (step_ok cycleLimit s0 t T ltac:(lia) St ltac:(lia) (fun s1 E1 => RI t s1 Rt ltac:(lia) E1)) as W. apply wpg_eqn in W.
      apply wpg_bind. destruct (poll_event t) as [t1| | |] eqn:E1; cbn [bind wpg] in *; try exact W.
      apply wpg_bind. eapply wpg_mono; [exact W|]. intros t2 ((S2 & P2) & E2). unfold continue_. cbn [wpg].
      split; [split; [now apply (RS t t1 t2); try lia|split; [exact S2|lia]]|]. right.
      destruct (M0 t St) as [_ M1]. specialize (M1 ltac:(lia)). unfold m at 1. destruct (m_cycle t2 <? cycleLimit) eqn:E3; [|lia].
      unfold m. rewrite E. pose proof (rn_cycle _ _ _ S2). destruct P2 as [-> | [-> P2]]; nia.
    + cbn [wpg leave]. split; [exact Rt|]. split; [exact St|lia].
  - now split.
  - right. unfold m, K, frame_fuel. destruct HS as [R1 R2 R3 R4 R5]. destruct (m_cycle s <? cycleLimit) eqn:E; nia.
Qed.
End Machine.
