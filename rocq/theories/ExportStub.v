(* The programs that ASAPWriter adds to exported modules, run on the emulated processor *)
From Verif Require Import Base BaseFacts Loop MemModel InfoModel InfoProofs PokeyModel MachineModel CpuSpec CpuArith CpuProofs PokeyProofs MachineProofs FrameProofs CpuFacts LoadProofs CallSpec CallProofs StepProofs ExportSpec.

Definition mem_code (base : Z) (l : list Z) (m : mem) : Prop := forall i, 0 <= i < len l -> ld m (base + i) = at_ l i.

Lemma mem_fetch base l m a v : mem_code base l m -> 0 <= a - base < len l -> at_ l (a - base) = v -> ld m a = v.
Proof. intros H R E. rewrite <- E, <- H by exact R. f_equal. lia. Qed.
Lemma mem_code_push base l m sp v : mem_code base l m -> 512 <= base -> 0 <= sp < 256 -> mem_code base l (st m (256 + sp) v).
Proof. intros H B S i Hi. rewrite ld_st_other by lia. now apply H. Qed.
Lemma mem_code_zp base l m v : mem_code base l m -> 512 <= base -> mem_code base l (st m 0 v).
Proof. intros H B i Hi. rewrite ld_st_other by lia. now apply H. Qed.
Lemma mem_code_jsr base l m r sp : mem_code base l m -> 512 <= base -> 0 <= sp < 256 -> mem_code base l (jsr_mem r sp m).
Proof. intros H B S. unfold jsr_mem. apply mem_code_push; [apply mem_code_push; assumption|assumption|apply w8_range]. Qed.

(* the return from a routine called by JSR *)
Lemma back r sp m s t : 1 <= sp <= 255 -> 0 <= r < 65535 -> m_memory s = jsr_mem r sp m -> m_s s = w8 (w8 (sp - 1) - 1) ->
  cpu_ok t -> at_opcode 96 t -> same_stack 2 (view s) (view t) ->
  exists z k, reach t (m_a t) (m_x t) (m_y t) sp (r + 1) (m_memory t) z k.
Proof.
  intros S R Em Es Ht [P O] [S1 S2]. change (SP (view s)) with (m_s s) in *. change (SP (view t)) with (m_s t) in S1. change (M (view t)) with (m_memory t) in S2. change (M (view s)) with (m_memory s) in S2.
  assert (St : steady t) by (split; [exact Ht|unfold view; cbn [PC]; rewrite Z.mod_small; lia]).
  assert (W1 : w8 (m_s s + 1) = sp - 1) by (rewrite Es; unfold w8; lia).
  assert (W2 : w8 (m_s s + 2) = sp) by (rewrite Es; unfold w8; lia).
  pose proof (S2 1 ltac:(lia)) as L1. pose proof (S2 2 ltac:(lia)) as L2. rewrite W1, Em in L1. rewrite W2, Em in L2. unfold jsr_mem in L1, L2.
  replace (w8 (sp - 1)) with (sp - 1) in L1, L2 by (unfold w8; lia). rewrite ld_st_same in L1. rewrite ld_st_other, ld_st_same in L2 by lia.
  assert (Q : pull_word (wPC (m_pc t + 1) (view t)) = (r, wSP sp (wPC (m_pc t + 1) (view t)))).
  { unfold pull_word, pull_byte. cbn [SP wSP M wPC]. change (SP (view t)) with (m_s t). change (M (view t)) with (m_memory t). rewrite S1, W1, L1.
    replace (w8 (sp - 1 + 1)) with sp by (unfold w8; lia). rewrite L2. f_equal. unfold w8. lia. }
  pose proof (go_rts t r _ St ltac:(lia) O Q ltac:(lia)) as G. destruct G as (t1 & E1 & V1 & H1 & P1 & R1).
  exists (fZ (view t)), (fC (view t)), 1%nat. eexists. split; [exists t1; cbn [executes]; rewrite E1; cbn [bind]; exact (conj eq_refl (conj V1 (conj H1 (conj P1 R1))))|].
  cbn [wPC wSP A X Y SP PC M fZ fC]. repeat split.
Qed.

Lemma back_kept sp v r s t m : 3 <= sp <= 255 -> m_memory s = jsr_mem r (sp - 1) (st m (256 + sp) v) -> m_s s = sp - 3 ->
  same_stack (sp - m_s s) (view s) (view t) -> ld (m_memory t) (256 + sp) = v.
Proof.
  intros S Em Es [S1 S2]. change (SP (view s)) with (m_s s) in *. change (M (view t)) with (m_memory t) in S2. change (M (view s)) with (m_memory s) in S2.
  specialize (S2 3 ltac:(lia)). replace (w8 (m_s s + 3)) with sp in S2 by (unfold w8; lia). rewrite S2, Em. unfold jsr_mem, w8.
  rewrite !ld_st_other by lia. apply ld_st_same.
Qed.

(* running over the code *)
Ltac code := match goal with C : mem_code ?base ?l ?m |- ld ?m ?a = ?v =>
  let i := eval vm_compute in (Z.to_nat (a - base)) in let w := eval cbn [nth] in (nth i l 0) in
  unify v w; eapply (mem_fetch _ _ _ _ _ C); [vm_compute; split; [discriminate|reflexivity]|reflexivity] end.
Ltac step n R := match goal with H : reach _ _ _ _ _ ?pc _ _ _ |- _ => let nxt := eval vm_compute in (pc + n) in eapply R with (q := nxt) in H; [|lia|code|first [code|reflexivity]..] end.
Ltac jump R dest := match goal with H : reach _ _ _ _ _ ?pc _ _ _ |- _ => eapply R with (w := dest) in H; [|lia|..]; [|first [code|lia]..] end.

Lemma start_reach s pc : cpu_ok s -> m_pc s = pc -> 0 <= pc < 65536 -> exists z k, reach s (m_a s) (m_x s) (m_y s) (m_s s) pc (m_memory s) z k.
Proof.
  intros Hs P R. assert (St : steady s) by (split; [exact Hs|unfold view; cbn [PC]; rewrite Z.mod_small; lia]).
  do 2 eexists. rewrite <- P. apply (reach_zero s St).
Qed.

Lemma intact_code lo hi s t base l : intact lo hi s t -> lo <= base -> base + len l <= hi -> mem_code base l (m_memory s) -> mem_code base l (m_memory t).
Proof. intros H L R C i Hi. rewrite H by lia. now apply C. Qed.


(* the call of the initialisation with the address of the module; the song is saved on the stack, and taken back *)
Ltac prologue_many base player ls lf :=
  lazymatch goal with Hs : cpu_ok ?s, P : m_pc ?s = base, Sp : 3 <= m_s ?s, Ea : m_a ?s = ?song, C : mem_code base ?cd (m_memory ?s) |- _ =>
    pose proof (ok_s _ Hs) as Os; unfold byte in Os;
    destruct (start_reach s base Hs P ltac:(lia)) as (z & k & H); rewrite Ea in H;
    step 1 r_pha; pose proof (mem_code_push _ _ _ (m_s s) song C ltac:(lia) ltac:(lia)) as C1;
    step 2 r_ldy_imm; step 2 r_ldx_imm; step 2 r_lda_imm; jump r_jsr player;
    apply reach_state in H; destruct H as (n & s1 & E1 & H1 & A1 & X1 & Y1 & S1 & P1 & M1 & R1);
    replace ((m_s s - 1) mod 256) with (m_s s - 1) in * by lia;
    cbn [calls]; exists n, s1; split; [exact E1|]; split; [exact H1|]; split; [exact (conj P1 (conj A1 (conj X1 Y1)))|]; split; [exact R1|];
    assert (Es1 : m_s s1 = m_s s - 3) by (rewrite S1; unfold w8; lia);
    split; [intros a Ha _ Na; rewrite M1; unfold jsr_mem, w8; rewrite !ld_st_other by lia; reflexivity|];
    intros t Ht Rt St It;
    pose proof (back_kept (m_s s) song _ s1 t _ ltac:(lia) M1 Es1 St) as Kt;
    destruct (back (base + 7 + 2) (m_s s - 1) _ s1 t ltac:(lia) ltac:(lia) M1 S1 Ht Rt (same_stack_less _ 2 _ _ St ltac:(lia))) as (z2 & k2 & G);
    pose proof (intact_code ls lf s t base cd It ltac:(lia) ltac:(vm_compute; discriminate) C) as Ct;
    let r1 := eval vm_compute in (base + 10) in change (base + 7 + 2 + 1) with r1 in G;
    let r2 := eval vm_compute in (base + 11) in
    eapply r_pla with (q := r2) (v := song) in G; [|lia|code|rewrite <- Kt; do 2 f_equal; lia|lia];
    replace ((m_s s - 1 + 1) mod 256) with (m_s s) in G by lia
  end.
Ltac prologue_one base player ls lf :=
  lazymatch goal with Hs : cpu_ok ?s, P : m_pc ?s = base, Sp : 3 <= m_s ?s, C : mem_code base ?cd (m_memory ?s) |- _ =>
    pose proof (ok_s _ Hs) as Os; unfold byte in Os;
    destruct (start_reach s base Hs P ltac:(lia)) as (z & k & H);
    step 2 r_ldy_imm; step 2 r_ldx_imm; step 2 r_lda_imm; jump r_jsr player;
    apply reach_state in H; destruct H as (n & s1 & E1 & H1 & A1 & X1 & Y1 & S1 & P1 & M1 & R1);
    cbn [calls]; exists n, s1; split; [exact E1|]; split; [exact H1|]; split; [exact (conj P1 (conj A1 (conj X1 Y1)))|]; split; [exact R1|];
    assert (Es1 : m_s s1 = m_s s - 2) by (rewrite S1; unfold w8; lia);
    split; [intros a Ha _ Na; rewrite M1; unfold jsr_mem, w8; rewrite !ld_st_other by lia; reflexivity|];
    intros t Ht Rt St It;
    destruct (back (base + 6 + 2) (m_s s) _ s1 t ltac:(lia) ltac:(lia) M1 S1 Ht Rt (same_stack_less _ 2 _ _ St ltac:(lia))) as (z2 & k2 & G);
    pose proof (intact_code ls lf s t base cd It ltac:(lia) ltac:(vm_compute; discriminate) C) as Ct;
    let r1 := eval vm_compute in (base + 9) in change (base + 6 + 2 + 1) with r1 in G
  end.
(* the jump to the player *)
Ltac finish G :=
  apply reach_state in G; destruct G as (n2 & s2 & E2 & H2 & A2 & X2 & Y2 & S2 & P2 & M2 & R2);
  exists n2, s2; split; [exact E2|]; split; [exact H2|]; split; [repeat split; first [exact I|assumption]|]; split; [exact R2|];
  split; [intros; now rewrite M2|]; split; [rewrite S2; lia|exact I].

(* MPT *)
Definition mpt_many (start lo hi : Z) : list Z := [72; 160; lo; 162; hi; 169; 0; 32; 0; 5; 104; 168; 190; start mod 256; start / 256; 169; 2].
Definition mpt_one (lo hi : Z) : list Z := [160; lo; 162; hi; 169; 0; 32; 0; 5; 162; 0; 169; 2].

Lemma mpt_many_run start lo hi songs song pos s : cpu_ok s -> m_pc s = 1263 -> 3 <= m_s s -> m_a s = song -> 0 <= song < songs -> start = 1263 - songs -> songs <= 32 ->
  mem_code 1263 (mpt_many start lo hi) (m_memory s) -> mem_code start pos (m_memory s) -> len pos = songs ->
  calls (intact 1231 1280 s) (fun _ => True) [] (m_s s) [Entry 1280 (Some 0) (Some hi) (Some lo); Entry 1280 (Some 2) (Some (at_ pos song)) None] s.
Proof.
  intros Hs P Sp Ea So Est Sm C T Lp. prologue_many 1263 1280 1231 1280. step 1 r_tay.
  eapply r_ldx_absy with (q := 1278) (w := start) (v := at_ pos song) in G; [|lia|code|code|code|lia|rewrite It by lia; apply T; lia|lia].
  step 2 r_lda_imm. finish G.
Qed.
Lemma mpt_one_run lo hi s : cpu_ok s -> m_pc s = 1267 -> 3 <= m_s s -> mem_code 1267 (mpt_one lo hi) (m_memory s) ->
  calls (intact 1231 1280 s) (fun _ => True) [] (m_s s) [Entry 1280 (Some 0) (Some hi) (Some lo); Entry 1280 (Some 2) (Some 0) None] s.
Proof.
  intros Hs P Sp C. prologue_one 1267 1280 1231 1280. step 2 r_ldx_imm. step 2 r_lda_imm. finish G.
Qed.

(* TM2 *)
Definition tm2_many (lo hi : Z) : list Z := [72; 160; lo; 162; hi; 169; 112; 32; 0; 8; 104; 170; 169; 0; 76; 0; 8].
Definition tm2_one (lo hi : Z) : list Z := [160; lo; 162; hi; 169; 112; 32; 0; 8; 169; 0; 170; 76; 0; 8].

Lemma tm2_many_run lo hi song s : cpu_ok s -> m_pc s = 4992 -> 3 <= m_s s -> m_a s = song -> mem_code 4992 (tm2_many lo hi) (m_memory s) ->
  calls (intact 4992 5009 s) (fun _ => True) [] (m_s s) [Entry 2048 (Some 112) (Some hi) (Some lo); Entry 2048 (Some 0) (Some song) None] s.
Proof. intros Hs P Sp Ea C. prologue_many 4992 2048 4992 5009. step 1 r_tax. step 2 r_lda_imm. jump r_jmp 2048. finish G. Qed.
Lemma tm2_one_run lo hi s : cpu_ok s -> m_pc s = 4992 -> 3 <= m_s s -> mem_code 4992 (tm2_one lo hi) (m_memory s) ->
  calls (intact 4992 5007 s) (fun _ => True) [] (m_s s) [Entry 2048 (Some 112) (Some hi) (Some lo); Entry 2048 (Some 0) (Some 0) None] s.
Proof. intros Hs P Sp C. prologue_one 4992 2048 4992 5007. step 2 r_lda_imm. step 1 r_tax. jump r_jmp 2048. finish G. Qed.

(* DLT *)
Definition dlt_many (start : Z) : list Z := [170; 188; start mod 256; start / 256; 76; 0; 5].
Definition dlt_one : list Z := [160; 0; 76; 0; 5].

Lemma dlt_many_run start songs song pos s : cpu_ok s -> m_pc s = 1017 -> m_a s = song -> 0 <= song < songs -> start = 1017 - songs -> songs <= 32 ->
  mem_code 1017 (dlt_many start) (m_memory s) -> mem_code start pos (m_memory s) -> len pos = songs ->
  calls (intact 985 1024 s) (fun _ => True) [] (m_s s) [Entry 1280 None None (Some (at_ pos song))] s.
Proof.
  intros Hs P Ea So Est Sm C T Lp. destruct (start_reach s 1017 Hs P ltac:(lia)) as (z & k & G). rewrite Ea in G.
  step 1 r_tax. eapply r_ldy_absx with (q := 1021) (w := start) (v := at_ pos song) in G; [|lia|code|code|code|lia|apply T; lia|lia].
  jump r_jmp 1280. cbn [calls]. finish G.
Qed.
Lemma dlt_one_run s : cpu_ok s -> m_pc s = 1019 -> mem_code 1019 dlt_one (m_memory s) ->
  calls (intact 985 1024 s) (fun _ => True) [] (m_s s) [Entry 1280 None None (Some 0)] s.
Proof.
  intros Hs P C. destruct (start_reach s 1019 Hs P ltac:(lia)) as (z & k & G). step 2 r_ldy_imm. jump r_jmp 1280. cbn [calls]. finish G.
Qed.

(* RMT *)
Definition rmt_many (lo hi : Z) : list Z := [168; 185; 139; 12; 162; lo; 160; hi; 76; 0; 6].
Definition rmt_one (lo hi : Z) : list Z := [169; 0; 162; lo; 160; hi; 76; 0; 6].

Lemma rmt_many_run lo hi songs song pos s : cpu_ok s -> m_pc s = 3200 -> m_a s = song -> 0 <= song < songs -> songs <= 32 ->
  mem_code 3200 (rmt_many lo hi) (m_memory s) -> mem_code 3211 pos (m_memory s) -> len pos = songs ->
  calls (intact 3200 (3211 + songs) s) (fun _ => True) [] (m_s s) [Entry 1536 (Some (at_ pos song)) (Some lo) (Some hi)] s.
Proof.
  intros Hs P Ea So Sm C T Lp. destruct (start_reach s 3200 Hs P ltac:(lia)) as (z & k & G). rewrite Ea in G.
  step 1 r_tay. eapply r_lda_absy with (q := 3204) (w := 3211) (v := at_ pos song) in G; [|lia|code|code|code|lia|apply T; lia|lia].
  step 2 r_ldx_imm. step 2 r_ldy_imm. jump r_jmp 1536. cbn [calls]. finish G.
Qed.
Lemma rmt_one_run lo hi s : cpu_ok s -> m_pc s = 3200 -> mem_code 3200 (rmt_one lo hi) (m_memory s) ->
  calls (intact 3200 3209 s) (fun _ => True) [] (m_s s) [Entry 1536 (Some 0) (Some lo) (Some hi)] s.
Proof.
  intros Hs P C. destruct (start_reach s 3200 Hs P ltac:(lia)) as (z & k & G). step 2 r_lda_imm. step 2 r_ldx_imm. step 2 r_ldy_imm. jump r_jmp 1536. cbn [calls]. finish G.
Qed.

(* FC *)
Lemma fc_run song s : cpu_ok s -> m_pc s = 1024 -> m_a s = song -> calls (fun _ => True) (fun _ => True) [] (m_s s) [Entry 1024 (Some song) None None] s.
Proof. intros Hs P Ea. destruct (start_reach s 1024 Hs P ltac:(lia)) as (z & k & G). rewrite Ea in G. cbn [calls]. finish G. Qed.

(* TMC: the same, then the counter at address 0 is set up *)
Definition tmc_head (many : bool) (lo hi : Z) : list Z :=
  if many then [72; 160; lo; 162; hi; 169; 112; 32; 0; 5; 104; 170; 169; 0] else [160; lo; 162; hi; 169; 112; 32; 0; 5; 169; 96].
Definition tmc_tail (pf : Z) : list Z :=
  if pf =? 1 then []
  else if pf =? 2 then [6; 0; 76; 0; 5; 165; 0; 230; 0; 74; 144; 5; 176; 6]
  else [160; 1; 132; 0; 208; 10; 198; 0; 208; 12; 160; pf; 132; 0; 208; 3].
Definition tmc_init (many : bool) (pf : Z) : Z := 1280 - len (tmc_tail pf) - (if many then 14 else 11).
Definition tmc_code (many : bool) (lo hi pf : Z) : list Z := tmc_head many lo hi ++ tmc_tail pf.

Definition counter_ready (pf : Z) (s : asap) : Prop := in_step pf 1 (ld (m_memory s) 0).

Ltac branch mn dest := match goal with H : reach _ _ _ _ _ _ _ _ _ |- _ =>
  eapply r_branch with (mn := mn) (w := dest) in H; [|lia|row_tac|discriminate|intros ? Ez Ek; cbn [taken]; rewrite ?Ez, ?Ek; reflexivity|code| |] end.

(* the jump to the player, with the counter *)
Ltac finish_counter G ready :=
  apply reach_state in G; destruct G as (n2 & s2 & E2 & H2 & A2 & X2 & Y2 & S2 & P2 & M2 & R2);
  exists n2, s2; split; [exact E2|]; split; [exact H2|]; split; [repeat split; first [exact I|assumption]|]; split; [exact R2|];
  split; [intros a Ha Na _; assert (a <> 0) by (intros ->; apply Na; now left); rewrite M2; try rewrite ld_st_other by lia; reflexivity|]; split; [rewrite S2; lia|unfold counter_ready, in_step; rewrite M2; ready].

Definition tmc_last (many : bool) (song : Z) : entry := if many then Entry 1280 (Some 0) (Some song) None else Entry 1280 (Some 96) None None.

Lemma tmc1_run (many : bool) lo hi song s : cpu_ok s -> m_pc s = tmc_init many 1 -> 3 <= m_s s -> m_a s = song -> mem_code (tmc_init many 1) (tmc_code many lo hi 1) (m_memory s) ->
  calls (intact 1250 1280 s) (counter_ready 1) [0] (m_s s) [Entry 1280 (Some 112) (Some hi) (Some lo); tmc_last many song] s.
Proof.
  intros Hs P Sp Ea C. destruct many.
  - change (tmc_init true 1) with 1266 in *. change (tmc_code true lo hi 1) with [72; 160; lo; 162; hi; 169; 112; 32; 0; 5; 104; 170; 169; 0] in C. prologue_many 1266 1280 1250 1280.
    step 1 r_tax. step 2 r_lda_imm. finish_counter G reflexivity.
  - change (tmc_init false 1) with 1269 in *. change (tmc_code false lo hi 1) with [160; lo; 162; hi; 169; 112; 32; 0; 5; 169; 96] in C. prologue_one 1269 1280 1250 1280.
    step 2 r_lda_imm. finish_counter G reflexivity.
Qed.

Ltac even := rewrite ld_st_same; cbn [Z.eqb Pos.eqb]; lia.

Lemma tmc2_run (many : bool) lo hi song s : cpu_ok s -> m_pc s = tmc_init many 2 -> 3 <= m_s s -> m_a s = song -> mem_code (tmc_init many 2) (tmc_code many lo hi 2) (m_memory s) ->
  calls (intact 1250 1280 s) (counter_ready 2) [0] (m_s s) [Entry 1280 (Some 112) (Some hi) (Some lo); tmc_last many song] s.
Proof.
  intros Hs P Sp Ea C. destruct many.
  - change (tmc_init true 2) with 1252 in *. unfold tmc_code in C. cbn [tmc_head tmc_tail Z.eqb Pos.eqb app] in C. prologue_many 1252 1280 1250 1280.
    step 1 r_tax. step 2 r_lda_imm. step 2 r_asl_zp. pose proof (mem_code_zp _ _ _ ((2 * ld (m_memory t) 0) mod 256) Ct ltac:(lia)) as C2. jump r_jmp 1280. finish_counter G even.
  - change (tmc_init false 2) with 1255 in *. unfold tmc_code in C. cbn [tmc_head tmc_tail Z.eqb Pos.eqb app] in C. prologue_one 1255 1280 1250 1280.
    step 2 r_lda_imm. step 2 r_asl_zp. pose proof (mem_code_zp _ _ _ ((2 * ld (m_memory t) 0) mod 256) Ct ltac:(lia)) as C2. jump r_jmp 1280. finish_counter G even.
Qed.

Lemma tmc_tail_many pf : pf = 3 \/ pf = 4 -> tmc_tail pf = [160; 1; 132; 0; 208; 10; 198; 0; 208; 12; 160; pf; 132; 0; 208; 3].
Proof. intros [-> | ->]; reflexivity. Qed.
Ltac one := rewrite ld_st_same; match goal with Hf : ?pf = 3 \/ ?pf = 4 |- _ => destruct Hf as [-> | ->] end; vm_compute; (split; [reflexivity|discriminate]).

Lemma tmc3_run (many : bool) lo hi pf song s : pf = 3 \/ pf = 4 -> cpu_ok s -> m_pc s = tmc_init many pf -> 3 <= m_s s -> m_a s = song -> mem_code (tmc_init many pf) (tmc_code many lo hi pf) (m_memory s) ->
  calls (intact 1250 1280 s) (counter_ready pf) [0] (m_s s) [Entry 1280 (Some 112) (Some hi) (Some lo); tmc_last many song] s.
Proof.
  intros Hf Hs P Sp Ea C. unfold tmc_code in C. assert (Ei : tmc_init many pf = if many then 1250 else 1253) by (unfold tmc_init; rewrite tmc_tail_many by exact Hf; now destruct many). 
  rewrite Ei in *. rewrite (tmc_tail_many pf Hf) in C. destruct many; cbn [tmc_head app] in C.
  - prologue_many 1250 1280 1250 1280. step 1 r_tax. step 2 r_lda_imm. step 2 r_ldy_imm. step 2 r_sty_zp. pose proof (mem_code_zp _ _ _ 1 Ct ltac:(lia)) as C2.
    eapply r_branch with (mn := BNE) (w := 1280) (b := true) in G; [|lia|row_tac|discriminate|intros ? Ez Ek; cbn [taken]; rewrite Ez; reflexivity|code| |]. 
    finish_counter G one.
    + replace (ld (st (m_memory t) 0 1) (1268 + 1)) with 10 by (symmetry; code). reflexivity.
    + replace (ld (st (m_memory t) 0 1) (1268 + 1)) with 10 by (symmetry; code). vm_compute. split; [discriminate|reflexivity].
  - prologue_one 1253 1280 1250 1280. step 2 r_lda_imm. step 2 r_ldy_imm. step 2 r_sty_zp. pose proof (mem_code_zp _ _ _ 1 Ct ltac:(lia)) as C2.
    eapply r_branch with (mn := BNE) (w := 1280) (b := true) in G; [|lia|row_tac|discriminate|intros ? Ez Ek; cbn [taken]; rewrite Ez; reflexivity|code| |]. 
    finish_counter G one.
    + replace (ld (st (m_memory t) 0 1) (1268 + 1)) with 10 by (symmetry; code). reflexivity.
    + replace (ld (st (m_memory t) 0 1) (1268 + 1)) with 10 by (symmetry; code). vm_compute. split; [discriminate|reflexivity].
Qed.

Definition tmc_player (pf : Z) : Z := if pf =? 1 then 1283 else if pf =? 2 then 1271 else 1270.
(* the part of the program that counts *)
Definition tmc_dispatch (pf : Z) : list Z :=
  if pf =? 1 then [] else if pf =? 2 then [165; 0; 230; 0; 74; 144; 5; 176; 6] else [198; 0; 208; 12; 160; pf; 132; 0; 208; 3].

(* one more call: the emulator's counter [c] and the program's select the same routine *)
Definition counted (pf c entry_often entry_once : Z) (s s1 : asap) : Prop :=
  m_pc s1 = (if 1 <=? c - 1 then entry_often else entry_once) /\ in_step pf (if 1 <=? c - 1 then c - 1 else pf) (ld (m_memory s1) 0) /\ m_s s1 = m_s s /\
  (forall a, 1 <= a -> ld (m_memory s1) a = ld (m_memory s) a) /\ rest s1 = rest s.

Ltac target k v := match goal with C : mem_code _ _ ?m |- context [ld ?m k] => replace (ld m k) with v by (symmetry; code) end.

Lemma counted_of pf c s a x y v w z k : reach s a x y (m_s s) w (st (m_memory s) 0 v) z k -> w = (if 1 <=? c - 1 then 1286 else 1283) ->
  in_step pf (if 1 <=? c - 1 then c - 1 else pf) v -> exists n s1, executes n s = Ok s1 /\ cpu_ok s1 /\ counted pf c 1286 1283 s s1.
Proof.
  intros H W I0. apply reach_state in H. destruct H as (n & s1 & E1 & H1 & A1 & X1 & Y1 & S1 & P1 & M1 & R1).
  exists n, s1. split; [exact E1|]. split; [exact H1|]. unfold counted. rewrite M1, ld_st_same.
  split; [congruence|]. split; [exact I0|]. split; [exact S1|]. split; [intros b Hb; apply ld_st_other; lia|exact R1].
Qed.
Lemma st_st m v w s : m_memory s = m -> forall a x y sp pc z k, reach s a x y sp pc (st (st m 0 v) 0 w) z k -> exists n s1,
  executes n s = Ok s1 /\ cpu_ok s1 /\ m_s s1 = sp /\ m_pc s1 = pc /\ ld (m_memory s1) 0 = w /\ (forall a, 1 <= a -> ld (m_memory s1) a = ld m a) /\ rest s1 = rest s.
Proof.
  intros Em a x y sp pc z k H. apply reach_state in H. destruct H as (n & s1 & E1 & H1 & A1 & X1 & Y1 & S1 & P1 & M1 & R1). exists n, s1.
  rewrite M1, ld_st_same. repeat (split; [assumption || reflexivity|]). split; [|exact R1]. intros b Hb. now rewrite !ld_st_other by lia.
Qed.

Lemma tmc_counts pf c s : 1 <= pf <= 4 -> cpu_ok s -> m_pc s = tmc_player pf -> mem_code (1280 - len (tmc_dispatch pf)) (tmc_dispatch pf) (m_memory s) ->
  in_step pf c (ld (m_memory s) 0) -> exists n s1, executes n s = Ok s1 /\ cpu_ok s1 /\ counted pf c 1286 1283 s s1.
Proof.
  intros Hf Hs P C I0. pose proof (ok_mem _ Hs 0) as B0. change (0 <= ld (m_memory s) 0 < 256) in B0. 
  assert (F : pf = 1 \/ pf = 2 \/ (pf = 3 \/ pf = 4)) by lia. destruct F as [-> |[-> |F]].
  - change (c = 1) in I0. subst c. exists 0%nat, s. split; [reflexivity|]. split; [exact Hs|]. repeat split. exact P.
  - change (c = 1 + ld (m_memory s) 0 mod 2) in I0. change (tmc_player 2) with 1271 in P. change (mem_code 1271 [165; 0; 230; 0; 74; 144; 5; 176; 6] (m_memory s)) in C.
    destruct (start_reach s 1271 Hs P ltac:(lia)) as (z & k & H). step 2 r_lda_zp. step 2 r_inc_zp. 
    pose proof (mem_code_zp _ _ _ ((ld (m_memory s) 0 + 1) mod 256) C ltac:(lia)) as C1. step 1 r_lsr.
    set (b := ld (m_memory s) 0) in *. 
    assert (J : in_step 2 (if 1 <=? c - 1 then c - 1 else 2) ((b + 1) mod 256)) by (unfold in_step; cbn [Z.eqb Pos.eqb]; destruct (Z.leb_spec 1 (c - 1)); lia).
    destruct (b mod 2 =? 1) eqn:Eb.
    + eapply r_branch with (mn := BCC) (w := 1278) (b := false) in H; [|lia|row_tac|discriminate|intros ? Ez Ek; cbn [taken]; rewrite Ek; reflexivity|code|reflexivity|].
      2:{ target (1276 + 1) 5. vm_compute. split; [discriminate|reflexivity]. }
      eapply r_branch with (mn := BCS) (w := 1286) (b := true) in H; [|lia|row_tac|discriminate|intros ? Ez Ek; cbn [taken]; rewrite Ek; reflexivity|code| |];
        [|target (1278 + 1) 6; vm_compute; try (split; [discriminate|]); reflexivity..].
      eapply counted_of; [exact H| |exact J]. destruct (Z.leb_spec 1 (c - 1)); [reflexivity|lia].
    + eapply r_branch with (mn := BCC) (w := 1283) (b := true) in H; [|lia|row_tac|discriminate|intros ? Ez Ek; cbn [taken]; rewrite Ek; reflexivity|code| |];
        [|target (1276 + 1) 5; vm_compute; try (split; [discriminate|]); reflexivity..].
      eapply counted_of; [exact H| |exact J]. destruct (Z.leb_spec 1 (c - 1)); [lia|reflexivity].
  - assert (I1 : c = ld (m_memory s) 0 /\ 1 <= c) by (destruct F as [-> | ->]; exact I0).
    assert (P1 : m_pc s = 1270) by (rewrite P; destruct F as [-> | ->]; reflexivity).
    assert (C1 : mem_code 1270 [198; 0; 208; 12; 160; pf; 132; 0; 208; 3] (m_memory s)) by (destruct F as [-> | ->]; exact C). clear C P I0. 
    assert (U : forall d, 1 <= d -> in_step pf d d) by (intros d Hd; unfold in_step; destruct F as [-> | ->]; cbn [Z.eqb Pos.eqb]; auto).
    destruct (start_reach s 1270 Hs P1 ltac:(lia)) as (z & k & H). step 2 r_dec_zp.
    pose proof (mem_code_zp _ _ _ ((ld (m_memory s) 0 - 1) mod 256) C1 ltac:(lia)) as C2.
    set (b := ld (m_memory s) 0) in *. destruct ((b - 1) mod 256 =? 0) eqn:Eb.
    + eapply r_branch with (mn := BNE) (w := 1274) (b := false) in H; [|lia|row_tac|discriminate|intros ? Ez Ek; cbn [taken]; rewrite Ez; reflexivity|code|reflexivity|].
      2:{ target (1272 + 1) 12. vm_compute. split; [discriminate|reflexivity]. }
      step 2 r_ldy_imm. step 2 r_sty_zp. pose proof (mem_code_zp _ _ _ pf C2 ltac:(lia)) as C3.
      eapply r_branch with (mn := BNE) (w := 1283) (b := true) in H; [|lia|row_tac|discriminate|intros ? Ez Ek; cbn [taken]; rewrite Ez; destruct F as [-> | ->]; reflexivity|code| |];
        [|target (1278 + 1) 3; vm_compute; try (split; [discriminate|]); reflexivity..].
      destruct (st_st _ _ _ s eq_refl _ _ _ _ _ _ _ H) as (n & s1 & E1 & H1 & S1 & Q1 & L0 & L1 & R1). exists n, s1. split; [exact E1|]. split; [exact H1|].
      unfold counted. rewrite L0, Q1. replace (1 <=? c - 1) with false by lia. split; [reflexivity|]. split; [apply U; lia|]. split; [exact S1|]. split; [exact L1|exact R1].
    + eapply r_branch with (mn := BNE) (w := 1286) (b := true) in H; [|lia|row_tac|discriminate|intros ? Ez Ek; cbn [taken]; rewrite Ez; reflexivity|code| |];
        [|target (1272 + 1) 12; vm_compute; try (split; [discriminate|]); reflexivity..].
      eapply counted_of; [exact H|now replace (1 <=? c - 1) with true by lia|]. replace (1 <=? c - 1) with true by lia. replace ((b - 1) mod 256) with (c - 1) by lia. apply U. lia.
Qed.
