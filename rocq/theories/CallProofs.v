(* Player calls, instruction by instruction *)
From Verif Require Import Base BaseFacts Loop MemModel InfoModel InfoProofs PokeyModel MachineModel CpuSpec CpuArith CpuProofs PokeyProofs MachineProofs FrameProofs CpuFacts LoadProofs CallSpec.

(* ---- single instructions, exactly ---- *)
Definition goes (s : asap) (c : cpu) : Prop :=
  exists s', execute s = Ok s' /\ view s' = c /\ cpu_ok s' /\ m_pc s' = PC c /\ rest s' = rest s.

(* the program counter is that of the view *)
Definition steady (s : asap) : Prop := cpu_ok s /\ m_pc s = PC (view s).

Lemma steady_range s : steady s -> 0 <= m_pc s < 65536.
Proof. intros [_ ->]. apply pc_view. Qed.

Lemma dispatch op n s : steady s -> ld (m_memory s) (m_pc s) = op -> get opcode_cycles op = Ok n ->
  execute s = r <- run_mode (first_switch op) (fetched n s) ;;
    match r with Done s => Ok s | Operand addr s => run_operation (second_switch op) addr s end.
Proof.
  intros H O N. unfold execute. rewrite fetch_ok by now apply steady_range. cbn [bind]. rewrite O, N. reflexivity.
Qed.

Lemma steady_fetched n s : steady s -> m_pc s < 65535 -> view (fetched n s) = wPC (m_pc s + 1) (view s) /\ cpu_ok (fetched n s) /\ m_pc (fetched n s) = m_pc s + 1.
Proof.
  intros H L. pose proof (steady_range s H) as R. split; [|split; [apply cpu_ok_fetched, H|reflexivity]].
  rewrite view_fetched by lia. destruct H as [_ E]. rewrite <- E. f_equal. unfold w16. lia.
Qed.

Lemma goes_push v s n : cpu_ok (fetched n s) -> view (fetched n s) = wPC (m_pc s + 1) (view s) -> byte v ->
  exists s', push v (fetched n s) = Ok s' /\ view s' = push_byte v (wPC (m_pc s + 1) (view s)) /\ cpu_ok s' /\ m_pc s' = m_pc s + 1 /\ rest s' = rest s.
Proof.
  intros H V B. destruct (push_view v _ H) as (s' & E & V' & H' & S). exists s'. split; [exact E|].
  split; [rewrite V', V, u8_byte by exact B; reflexivity|]. split; [exact H'|]. split; [|apply S].
  destruct S as (_ & _ & -> & _). reflexivity.
Qed.

Lemma go_php s : steady s -> m_pc s < 65535 -> ld (m_memory s) (m_pc s) = 8 ->
  goes s (push_byte (status true (view s)) (wPC (m_pc s + 1) (view s))).
Proof.
  intros H L O. unfold goes. rewrite (dispatch 8 3 s H O eq_refl). cbn [first_switch run_mode].
  destruct (steady_fetched 3 s H L) as (V & K & P). destruct (push_flags_view true _ K) as (s' & E & V' & H' & S). cbn iota in E. rewrite E. cbn [bind done].
  exists s'. split; [reflexivity|]. split; [rewrite V', V; reflexivity|]. split; [exact H'|]. split; [|apply S].
  destruct S as (_ & _ & -> & _). exact P.
Qed.

Lemma go_pha s : steady s -> m_pc s < 65535 -> ld (m_memory s) (m_pc s) = 72 ->
  goes s (push_byte (m_a s) (wPC (m_pc s + 1) (view s))).
Proof.
  intros H L O. unfold goes. rewrite (dispatch 72 3 s H O eq_refl). cbn [first_switch run_mode].
  destruct (steady_fetched 3 s H L) as (V & K & P). destruct (goes_push (m_a s) s 3 K V (ok_a _ (proj1 H))) as (s' & E & R).
  change (m_a (fetched 3 s)) with (m_a s). rewrite E. cbn [bind done]. exists s'. split; [reflexivity|]. exact R.
Qed.

Lemma go_txa s : steady s -> m_pc s < 65535 -> ld (m_memory s) (m_pc s) = 138 ->
  goes s (wNZ (m_x s) (wA (m_x s) (wPC (m_pc s + 1) (view s)))).
Proof.
  intros H L O. unfold goes. rewrite (dispatch 138 2 s H O eq_refl). cbn [first_switch run_mode bind done].
  destruct (steady_fetched 2 s H L) as (V & K & P). eexists. split; [reflexivity|].
  split; [unfold load_a; rewrite view_nz, view_a by apply (ok_x _ (proj1 H)); rewrite V; reflexivity|].
  split; [|split; reflexivity]. pose proof (ok_x _ (proj1 H)) as B. destruct K. constructor; proj; try assumption; unfold byte in *; lia.
Qed.
Lemma go_tya s : steady s -> m_pc s < 65535 -> ld (m_memory s) (m_pc s) = 152 ->
  goes s (wNZ (m_y s) (wA (m_y s) (wPC (m_pc s + 1) (view s)))).
Proof.
  intros H L O. unfold goes. rewrite (dispatch 152 2 s H O eq_refl). cbn [first_switch run_mode bind done].
  destruct (steady_fetched 2 s H L) as (V & K & P). eexists. split; [reflexivity|].
  split; [unfold load_a; rewrite view_nz, view_a by apply (ok_y _ (proj1 H)); rewrite V; reflexivity|].
  split; [|split; reflexivity]. pose proof (ok_y _ (proj1 H)) as B. destruct K. constructor; proj; try assumption; unfold byte in *; lia.
Qed.
Lemma go_tax s : steady s -> m_pc s < 65535 -> ld (m_memory s) (m_pc s) = 170 ->
  goes s (wNZ (m_a s) (wX (m_a s) (wPC (m_pc s + 1) (view s)))).
Proof.
  intros H L O. unfold goes. rewrite (dispatch 170 2 s H O eq_refl). cbn [first_switch run_mode bind done].
  destruct (steady_fetched 2 s H L) as (V & K & P). eexists. split; [reflexivity|].
  split; [unfold load_x; rewrite view_nz, view_x by apply (ok_a _ (proj1 H)); rewrite V; reflexivity|].
  split; [|split; reflexivity]. pose proof (ok_a _ (proj1 H)) as B. destruct K. constructor; proj; try assumption; unfold byte in *; lia.
Qed.
Lemma go_tay s : steady s -> m_pc s < 65535 -> ld (m_memory s) (m_pc s) = 168 ->
  goes s (wNZ (m_a s) (wY (m_a s) (wPC (m_pc s + 1) (view s)))).
Proof.
  intros H L O. unfold goes. rewrite (dispatch 168 2 s H O eq_refl). cbn [first_switch run_mode bind done].
  destruct (steady_fetched 2 s H L) as (V & K & P). eexists. split; [reflexivity|].
  split; [unfold load_y; rewrite view_nz, view_y by apply (ok_a _ (proj1 H)); rewrite V; reflexivity|].
  split; [|split; reflexivity]. pose proof (ok_a _ (proj1 H)) as B. destruct K. constructor; proj; try assumption; unfold byte in *; lia.
Qed.

Lemma go_pla s v c : steady s -> m_pc s < 65535 -> ld (m_memory s) (m_pc s) = 104 -> pull_byte (wPC (m_pc s + 1) (view s)) = (v, c) ->
  goes s (wNZ v (wA v c)).
Proof.
  intros H L O E. unfold goes. rewrite (dispatch 104 4 s H O eq_refl). cbn [first_switch run_mode].
  destruct (steady_fetched 4 s H L) as (V & K & P). destruct (pull_view _ K) as (w & s1 & E1 & V1 & B1 & H1 & S1). rewrite E1. cbn [bind done].
  rewrite V, E in V1. assert (v = w) as -> by congruence. assert (c = view s1) as -> by congruence.
  eexists. split; [reflexivity|]. split; [unfold load_a; rewrite view_nz, view_a by exact B1; reflexivity|].
  split; [|split; [|apply S1]].
  - destruct H1. constructor; proj; try assumption. unfold byte in B1. lia.
  - transitivity (m_pc s1); [reflexivity|]. assert (PCV : PC (view s1) = m_pc s + 1) by (unfold pull_byte in E; cbv zeta in E; replace (view s1) with (wSP (w8 (SP (wPC (m_pc s + 1) (view s)) + 1)) (wPC (m_pc s + 1) (view s))) by congruence; reflexivity).
    change (PC (wNZ w (wA w (view s1)))) with (PC (view s1)). rewrite PCV. destruct S1 as (_ & _ & -> & _). exact P.
Qed.

Lemma go_jsr s : steady s -> m_pc s < 65533 -> ld (m_memory s) (m_pc s) = 32 -> 512 <= m_pc s ->
  goes s (wPC (ld (m_memory s) (m_pc s + 1) + 256 * ld (m_memory s) (m_pc s + 2)) (push_word (m_pc s + 2) (wPC (m_pc s + 1) (view s)))).
Proof.
  intros H L O P512. unfold goes. rewrite (dispatch 32 6 s H O eq_refl). cbn [first_switch run_mode].
  destruct (steady_fetched 6 s H ltac:(lia)) as (V & K & P). rewrite fetch_ok by lia. cbn [bind]. rewrite P. change (m_memory (fetched 6 s)) with (m_memory s).
  destruct (push_pc_view (skip 1 (fetched 6 s)) (cpu_ok_skip _ _ K)) as (s1 & E1 & V1 & H1 & S1). rewrite E1. cbn [bind].
  assert (P1 : m_pc s1 = m_pc s + 2) by (destruct S1 as (_ & _ & -> & _); proj; lia).
  rewrite mem_rd_ok by lia. cbn [bind done]. rewrite P1, shl8.
  pose proof (ld_byte s (m_pc s + 1) (proj1 H)) as B1. pose proof (ld_byte s (m_pc s + 2) (proj1 H)) as B2. pose proof (sp_view s (proj1 H)) as SPr. pose proof (steady_range s H) as R.
  assert (W : view (skip 1 (fetched 6 s)) = wPC (m_pc s + 2) (view s)).
  { unfold skip at 1. rewrite view_pc, V. cbn [wPC A X Y SP PC fN fV fD fI fZ fC M]. unfold wPC. cbn [A X Y SP PC fN fV fD fI fZ fC M]. f_equal. rewrite P. lia. }
  assert (ML : ld (m_memory s1) (m_pc s + 2) = ld (m_memory s) (m_pc s + 2)).
  { change (m_memory s1) with (M (view s1)). rewrite V1, W. unfold push_word, push_byte. cbn [M SP wM wSP wPC].
    rewrite !ld_st_other; [reflexivity|unfold w8; lia..]. }
  rewrite ML. eexists. split; [reflexivity|]. split; [|split; [apply cpu_ok_pc, H1|split; [|apply S1]]].
  - rewrite view_pc, V1, W. rewrite Z.mod_small by lia. change (PC (wPC (m_pc s + 2) (view s))) with (m_pc s + 2).
    rewrite (Z.mul_comm 256). reflexivity.
  - cbn [m_pc set_m_pc PC wPC]. lia.
Qed.

Lemma go_rts s w c : steady s -> m_pc s < 65535 -> ld (m_memory s) (m_pc s) = 96 -> pull_word (wPC (m_pc s + 1) (view s)) = (w, c) -> w < 65535 ->
  goes s (wPC (w + 1) c).
Proof.
  intros H L O E W. unfold goes. rewrite (dispatch 96 6 s H O eq_refl). cbn [first_switch run_mode].
  destruct (steady_fetched 6 s H L) as (V & K & P). destruct (pull_view _ K) as (v1 & s1 & E1 & V1 & B1 & H1 & S1). rewrite E1. cbn [bind].
  destruct (pull_view _ H1) as (v2 & s2 & E2 & V2 & B2 & H2 & S2). rewrite E2. cbn [bind done].
  unfold pull_word in E. rewrite <- V, V1, V2 in E. assert (Ew : w = v1 + 256 * v2) by congruence. assert (c = view s2) as -> by congruence. unfold byte in *.
  rewrite shl8. eexists. split; [reflexivity|]. split; [|split; [apply cpu_ok_pc, H2|split]].
  - rewrite view_pc. f_equal. rewrite Z.mod_small by lia. lia.
  - cbn [m_pc set_m_pc PC wPC]. lia.
  - transitivity (rest s2); [reflexivity|]. destruct S2 as (-> & _). apply S1.
Qed.

Lemma go_rti s v c w d : steady s -> m_pc s < 65535 -> ld (m_memory s) (m_pc s) = 64 ->
  pull_byte (wPC (m_pc s + 1) (view s)) = (v, c) -> pull_word (set_status v c) = (w, d) -> 0 <= w < 65536 ->
  (is_irq s = false \/ fI d = true) -> goes s (wPC w d).
Proof.
  intros H L O E1 E2 W Q. unfold goes. rewrite (dispatch 64 6 s H O eq_refl). cbn [first_switch run_mode].
  destruct (steady_fetched 6 s H L) as (V & K & P). destruct (pull_flags_view _ K) as (s1 & F1 & V1 & H1 & R1 & C1 & P1). rewrite F1. cbn [bind].
  rewrite V, E1 in V1. destruct (pull_view _ H1) as (v2 & s2 & F2 & V2 & B2 & H2 & S2). rewrite F2. cbn [bind].
  destruct (pull_view _ H2) as (v3 & s3 & F3 & V3 & B3 & H3 & S3). rewrite F3. cbn [bind].
  unfold pull_word in E2. rewrite <- V1, V2, V3 in E2. assert (Ew : w = v2 + 256 * v3) by congruence. assert (d = view s3) as -> by congruence. unfold byte in *.
  rewrite shl8. replace (v2 + v3 * 256) with w by lia.
  assert (R3 : rest s3 = rest s) by (destruct S3 as (-> & _), S2 as (-> & _); exact R1).
  assert (N : check_irq (set_m_pc w s3) = Ok (set_m_pc w s3)).
  { destruct Q as [Q|Q].
    - apply no_irq. change (is_irq (set_m_pc w s3)) with (is_irq s3). now rewrite (rest_irq s s3 R3).
    - unfold check_irq. replace (Z.land (m_vdi (set_m_pc w s3)) 4 =? 0) with false; [reflexivity|].
      change (fI (view s3)) with (Z.testbit (m_vdi s3) 2) in Q. change (m_vdi (set_m_pc w s3)) with (m_vdi s3). symmetry. apply Z.eqb_neq. intros Z0.
      assert (T : Z.testbit (Z.land (m_vdi s3) 4) 2 = true) by (rewrite Z.land_spec, Q; reflexivity). rewrite Z0 in T. discriminate T. }
  rewrite N. cbn [bind done]. eexists. split; [reflexivity|]. split; [rewrite view_pc; now rewrite Z.mod_small by lia|].
  split; [apply cpu_ok_pc, H3|]. split; [reflexivity|exact R3].
Qed.

(* ---- sequences ---- *)
Definition runs (n : nat) (s : asap) (c : cpu) : Prop :=
  exists s', executes n s = Ok s' /\ view s' = c /\ cpu_ok s' /\ m_pc s' = PC c /\ rest s' = rest s.

Lemma executes_add n m s s' : executes n s = Ok s' -> executes (n + m) s = executes m s'.
Proof.
  revert s. induction n as [|n IH]; intros s E; cbn [executes Nat.add] in *.
  - congruence.
  - destruct (execute s) as [t| | |]; cbn [bind] in *; try discriminate E. now apply IH.
Qed.
Lemma runs_zero s : steady s -> runs 0 s (view s).
Proof. intros [H E]. exists s. cbn [executes]. auto. Qed.
Lemma runs_next n s c d : runs n s c -> (forall t, steady t -> view t = c -> m_pc t = PC c -> rest t = rest s -> goes t d) -> runs (n + 1) s d.
Proof.
  intros (s1 & E & V & H & P & R) G. destruct (G s1) as (s2 & E2 & V2 & H2 & P2 & R2); [split; [exact H|now rewrite V]|exact V|exact P|exact R|].
  exists s2. rewrite (executes_add n 1 _ _ E). cbn [executes]. rewrite E2. cbn [bind]. split; [reflexivity|]. split; [exact V2|]. split; [exact H2|]. split; [exact P2|]. now rewrite R2.
Qed.

(* memory above the stack page is not touched by pushing *)
Lemma ld_push v c a : 0 <= SP c < 256 -> 512 <= a -> ld (M (push_byte v c)) a = ld (M c) a.
Proof. intros H Ha. unfold push_byte. cbn [M wM wSP]. apply ld_st_other; lia. Qed.

(* ---- the call stub of type D ---- *)
Definition stub (player : Z) : list Z := [8; 72; 138; 72; 152; 72; 32; u8 player; u8 (Z.shiftr player 8); 104; 168; 104; 170; 104; 64].

Lemma bytes_stub p : bytes (stub p).
Proof. unfold stub, bytes. repeat (constructor; [first [apply byte_u8|unfold byte; lia]|]). constructor. Qed.

Lemma call_player_d_view player s : cpu_ok s -> 0 <= player ->
  exists s1, call_player_d player s = Ok s1 /\
    view s1 = wPC 53760 (wM (st_list (M (push_word (PC (view s)) (view s))) 53760 (stub player)) (push_word (PC (view s)) (view s))) /\
    cpu_ok s1 /\ m_pc s1 = 53760 /\ rest s1 = rest s.
Proof.
  intros H Hp. unfold call_player_d. replace (0 <=? player) with true by lia.
  destruct (push_pc_view s H) as (s1 & E1 & V1 & H1 & S1). rewrite E1. cbn [bind]. fold (stub player). eexists. split; [reflexivity|].
  split; [|split; [|split; [reflexivity|apply S1]]].
  - rewrite view_pc, view_m. change (m_memory s1) with (M (view s1)). rewrite V1. reflexivity.
  - apply cpu_ok_pc. destruct H1. constructor; proj; try assumption. apply byte_mem_st_list; [assumption|apply bytes_stub].
Qed.

(* what the stub has on the stack when the player is entered *)
Definition pushed (c0 : cpu) (c : cpu) : cpu :=
  push_word 53768 (push_byte (Y c0) (push_byte (X c0) (push_byte (A c0) (push_byte (status true c0) (push_word (PC c0) c))))).

Lemma view_entered player s c : view s = c -> cpu_ok s -> 0 <= player < 65536 -> i_type (m_info s) = SAP_D -> i_player (m_info s) = player ->
  exists s1, call6502_player s = Ok s1 /\ exists c2, runs 7 s1 c2 /\ PC c2 = player /\ X c2 = X c /\ Y c2 = Y c /\ A c2 = Y c /\
    SP c2 = SP (pushed c c) /\ (forall i, 1 <= i <= 8 -> ld (M c2) (256 + w8 (SP c2 + i)) = ld (M (pushed c c)) (256 + w8 (SP c2 + i))) /\
    (forall i, 0 <= i < 15 -> ld (M c2) (53760 + i) = at_ (stub player) i) /\
    (forall a, 512 <= a -> ~ (53760 <= a < 53775) -> ld (M c2) a = ld (M c) a) /\ fD c2 = fD c /\ fI c2 = fI c /\ fV c2 = fV c /\ fC c2 = fC c /\ rest s1 = rest s.
Proof.
  intros Ec H Hp T P. unfold call6502_player. rewrite T, P.
  destruct (call_player_d_view player s H ltac:(lia)) as (s1 & E1 & V1 & H1 & P1 & R1). exists s1. split; [exact E1|]. rewrite Ec in V1.
  pose proof (sp_view s H) as Sp. rewrite Ec in Sp.
  set (c1 := push_word (PC c) c) in *. set (m1 := st_list (M c1) 53760 (stub player)) in *.
  set (d0 := wPC 53760 (wM m1 c1)) in *.
  assert (S0 : 0 <= SP d0 < 256) by apply w8_range.
  assert (L0 : forall a, 512 <= a -> ld (M d0) a = if (53760 <=? a) && (a <? 53775) then at_ (stub player) (a - 53760) else ld (M c) a).
  { intros a Ha. change (M d0) with m1. unfold m1. rewrite ld_st_list by lia. change (len (stub player)) with 15.
    change (53760 + 15) with 53775. destruct ((53760 <=? a) && (a <? 53775)); [reflexivity|]. unfold c1, push_word. rewrite !ld_push; [reflexivity|lia|lia|rewrite push_byte_sp; apply w8_range|lia]. }
  assert (G0 : runs 0 s1 d0) by (rewrite <- V1; apply runs_zero; split; [exact H1|rewrite V1; exact P1]).
  set (d1 := push_byte (status true d0) (wPC 53761 d0)).
  assert (G1 : runs (0 + 1) s1 d1).
  { eapply runs_next; [exact G0|]. intros t St Vt Pt Rt. change (PC d0) with 53760 in Pt.
    pose proof (go_php t St ltac:(lia)) as G. rewrite Pt, Vt in G. apply G. change (m_memory t) with (M (view t)). rewrite Vt, L0 by lia. reflexivity. }
  assert (S1 : 0 <= SP d1 < 256) by apply w8_range.
  assert (L1 : forall a, 512 <= a -> ld (M d1) a = ld (M d0) a) by (intros a Ha; unfold d1; rewrite ld_push; [reflexivity|exact S0|exact Ha]).
  set (d2 := push_byte (A d1) (wPC 53762 d1)).
  assert (G2 : runs (0 + 1 + 1) s1 d2).
  { eapply runs_next; [exact G1|]. intros t St Vt Pt Rt. change (PC d1) with 53761 in Pt.
    pose proof (go_pha t St ltac:(lia)) as G. change (m_a t) with (A (view t)) in G. rewrite Pt, Vt in G. apply G. change (m_memory t) with (M (view t)). rewrite Vt, L1, L0 by lia. reflexivity. }
  assert (S2 : 0 <= SP d2 < 256) by apply w8_range.
  assert (L2 : forall a, 512 <= a -> ld (M d2) a = ld (M d0) a) by (intros a Ha; unfold d2; rewrite ld_push; [now apply L1|exact S1|exact Ha]).
  set (d3 := wNZ (X d2) (wA (X d2) (wPC 53763 d2))).
  assert (G3 : runs (0 + 1 + 1 + 1) s1 d3).
  { eapply runs_next; [exact G2|]. intros t St Vt Pt Rt. change (PC d2) with 53762 in Pt.
    pose proof (go_txa t St ltac:(lia)) as G. change (m_x t) with (X (view t)) in G. rewrite Pt, Vt in G. apply G. change (m_memory t) with (M (view t)). rewrite Vt, L2, L0 by lia. reflexivity. }
  assert (L3 : forall a, 512 <= a -> ld (M d3) a = ld (M d0) a) by exact L2.
  assert (S3 : 0 <= SP d3 < 256) by exact S2.
  set (d4 := push_byte (A d3) (wPC 53764 d3)).
  assert (G4 : runs (0 + 1 + 1 + 1 + 1) s1 d4).
  { eapply runs_next; [exact G3|]. intros t St Vt Pt Rt. change (PC d3) with 53763 in Pt.
    pose proof (go_pha t St ltac:(lia)) as G. change (m_a t) with (A (view t)) in G. rewrite Pt, Vt in G. apply G. change (m_memory t) with (M (view t)). rewrite Vt, L3, L0 by lia. reflexivity. }
  assert (S4 : 0 <= SP d4 < 256) by apply w8_range.
  assert (L4 : forall a, 512 <= a -> ld (M d4) a = ld (M d0) a) by (intros a Ha; unfold d4; rewrite ld_push; [now apply L3|exact S3|exact Ha]).
  set (d5 := wNZ (Y d4) (wA (Y d4) (wPC 53765 d4))).
  assert (G5 : runs (0 + 1 + 1 + 1 + 1 + 1) s1 d5).
  { eapply runs_next; [exact G4|]. intros t St Vt Pt Rt. change (PC d4) with 53764 in Pt.
    pose proof (go_tya t St ltac:(lia)) as G. change (m_y t) with (Y (view t)) in G. rewrite Pt, Vt in G. apply G. change (m_memory t) with (M (view t)). rewrite Vt, L4, L0 by lia. reflexivity. }
  assert (L5 : forall a, 512 <= a -> ld (M d5) a = ld (M d0) a) by exact L4.
  assert (S5 : 0 <= SP d5 < 256) by exact S4.
  set (d6 := push_byte (A d5) (wPC 53766 d5)).
  assert (G6 : runs (0 + 1 + 1 + 1 + 1 + 1 + 1) s1 d6).
  { eapply runs_next; [exact G5|]. intros t St Vt Pt Rt. change (PC d5) with 53765 in Pt.
    pose proof (go_pha t St ltac:(lia)) as G. change (m_a t) with (A (view t)) in G. rewrite Pt, Vt in G. apply G. change (m_memory t) with (M (view t)). rewrite Vt, L5, L0 by lia. reflexivity. }
  assert (S6 : 0 <= SP d6 < 256) by apply w8_range.
  assert (L6 : forall a, 512 <= a -> ld (M d6) a = ld (M d0) a) by (intros a Ha; unfold d6; rewrite ld_push; [now apply L5|exact S5|exact Ha]).
  set (d7 := wPC player (push_word 53768 (wPC 53767 d6))).
  assert (G7 : runs (0 + 1 + 1 + 1 + 1 + 1 + 1 + 1) s1 d7).
  { eapply runs_next; [exact G6|]. intros t St Vt Pt Rt. change (PC d6) with 53766 in Pt.
    assert (Et : m_memory t = M d6) by (change (m_memory t) with (M (view t)); now rewrite Vt).
    pose proof (go_jsr t St ltac:(lia)) as G. rewrite Et, Pt, Vt in G.
    specialize (G ltac:(rewrite L6, L0 by lia; reflexivity) ltac:(lia)).
    assert (X1 : ld (M d6) (53766 + 1) = u8 player) by (rewrite L6, L0 by lia; reflexivity).
    assert (X2 : ld (M d6) (53766 + 2) = u8 (Z.shiftr player 8)) by (rewrite L6, L0 by lia; reflexivity).
    rewrite X1, X2 in G. replace (u8 player + 256 * u8 (Z.shiftr player 8)) with player in G by (rewrite shr8; unfold u8; lia). exact G. }
  exists d7. split; [exact G7|]. split; [reflexivity|]. split; [reflexivity|]. split; [reflexivity|]. split; [reflexivity|].
  assert (L7 : forall a, 512 <= a -> ld (M d7) a = ld (M d0) a).
  { intros a Ha. unfold d7, push_word. change (M (wPC player ?c)) with (M c). rewrite !ld_push; [now apply L6|exact S6|exact Ha|rewrite push_byte_sp; apply w8_range|exact Ha]. }
  split; [reflexivity|]. split; [|split; [|split; [|split; [reflexivity|split; [reflexivity|split; [reflexivity|split; [reflexivity|exact R1]]]]]]].
  - (* below 512 the stub does not matter *)
    assert (K : forall a, 0 <= a < 512 -> ld (M d7) a = ld (M (pushed c c)) a).
    { assert (B0 : forall a, 0 <= a < 512 -> ld (M d0) a = ld (M c1) a).
      { intros a Ha. change (M d0) with m1. unfold m1. rewrite ld_st_list by lia. replace (53760 <=? a) with false by lia. reflexivity. }
      assert (PB : forall v x y, 0 <= SP y < 256 -> SP x = SP y -> (forall a, 0 <= a < 512 -> ld (M x) a = ld (M y) a) ->
        (forall a, 0 <= a < 512 -> ld (M (push_byte v x)) a = ld (M (push_byte v y)) a)).
      { intros v x y Hy Es Ex a Ha. unfold push_byte. cbn [M wM wSP]. rewrite Es. destruct (Z.eq_dec a (256 + SP y)) as [->|N]; [now rewrite !ld_st_same|].
        rewrite !ld_st_other by lia. now apply Ex. }
      unfold d7, pushed, push_word.
      repeat (apply PB; [first [exact Sp|apply w8_range]|reflexivity|]). exact B0. }
    intros i Hi. apply K. pose proof (w8_range (SP d7 + i)). lia.
  - intros i Hi. rewrite L7, L0 by lia. replace ((53760 <=? 53760 + i) && (53760 + i <? 53775)) with true by lia. f_equal. lia.
  - intros a Ha Na. rewrite L7, L0 by lia. destruct ((53760 <=? a) && (a <? 53775)) eqn:E; [lia|reflexivity].
Qed.

(* the way back *)
Lemma pull_pushed v c t : 0 <= SP c < 256 -> same_stack 1 (push_byte v c) t -> pull_byte t = (v, wSP (SP c) t).
Proof. apply pull_push. Qed.

Lemma same_stack_pc n c t pc : same_stack n c t -> same_stack n c (wPC pc t).
Proof. intros [H1 H2]. split; [exact H1|exact H2]. Qed.
Lemma same_stack_any n c t u : same_stack n c t -> SP u = SP t -> M u = M t -> same_stack n c u.
Proof. intros [H1 H2] E1 E2. split; [now rewrite E1|]. intros i Hi. rewrite E2. now apply H2. Qed.

Lemma player_returns c0 c player t : 0 <= SP c < 256 -> byte (A c0) -> byte (X c0) -> byte (Y c0) -> 0 <= PC c0 < 65536 ->
  steady t -> m_pc t < 65535 -> ld (m_memory t) (m_pc t) = 96 -> same_stack 8 (pushed c0 c) (view t) ->
  (forall i, 9 <= i < 15 -> ld (m_memory t) (53760 + i) = at_ (stub player) i) ->
  (is_irq t = false \/ fI c0 = true) ->
  exists d, runs 7 t d /\ A d = A c0 /\ X d = X c0 /\ Y d = Y c0 /\ SP d = SP c /\ PC d = PC c0 /\ flags_of d = flags_of c0 /\ M d = M (view t).
Proof.
  intros Sp BA BX BY BP St L O S Stub Q. unfold pushed in S.
  set (p1 := push_word (PC c0) c) in *. set (p2 := push_byte (status true c0) p1) in *. set (p3 := push_byte (A c0) p2) in *.
  set (p4 := push_byte (X c0) p3) in *. set (p5 := push_byte (Y c0) p4) in *.
  assert (R1 : 0 <= SP p1 < 256) by apply w8_range. assert (R2 : 0 <= SP p2 < 256) by apply w8_range. assert (R3 : 0 <= SP p3 < 256) by apply w8_range.
  assert (R4 : 0 <= SP p4 < 256) by apply w8_range. assert (R5 : 0 <= SP p5 < 256) by apply w8_range.
  assert (R5' : 0 <= SP (push_byte (w8 (53768 / 256)) p5) < 256) by apply w8_range.
  assert (Mt : forall u, M u = M (view t) -> forall i, 9 <= i < 15 -> ld (M u) (53760 + i) = at_ (stub player) i) by (intros u -> i Hi; now apply Stub).
  assert (PW : pull_word (wPC (m_pc t + 1) (view t)) = (53768, wSP (SP p5) (wPC (m_pc t + 1) (view t)))).
  { apply pull_push_word; [exact R5|lia|]. apply same_stack_pc. now apply same_stack_less with 8. }
  set (e1 := wPC 53769 (wSP (SP p5) (wPC (m_pc t + 1) (view t)))).
  assert (G0 : runs 0 t (view t)) by now apply runs_zero.
  assert (G1 : runs (0 + 1) t e1).
  { eapply runs_next; [exact G0|]. intros u Su Vu Pu Ru. destruct St as [_ Et]. rewrite <- Et in Pu.
    pose proof (go_rts u 53768 (wSP (SP p5) (wPC (m_pc t + 1) (view t))) Su ltac:(lia)) as G. rewrite Pu, Vu in G. apply G; [|exact PW|lia].
    change (m_memory u) with (M (view u)). rewrite Vu. exact O. }
  assert (S1 : same_stack 6 p5 e1).
  { pose proof (same_stack_pop 7 _ _ _ R5' ltac:(lia) S) as K1. pose proof (same_stack_pop 6 _ _ _ R5 ltac:(lia) K1) as K2.
    eapply same_stack_any; [exact K2|reflexivity|reflexivity]. }
  clear PW. assert (M1 : M e1 = M (view t)) by reflexivity. assert (P1 : PC e1 = 53769) by reflexivity. clearbody e1.
  (* PLA TAY *)
  set (e2 := wNZ (Y c0) (wA (Y c0) (wSP (SP p4) (wPC 53770 e1)))).
  assert (G2 : runs (0 + 1 + 1) t e2).
  { eapply runs_next; [exact G1|]. intros u Su Vu Pu Ru. rewrite P1 in Pu.
    pose proof (go_pla u (Y c0) (wSP (SP p4) (wPC 53770 e1)) Su ltac:(lia)) as G. rewrite Pu, Vu in G. apply G.
    - change (m_memory u) with (M (view u)). rewrite Vu. apply (Mt e1 M1 9). lia.
    - apply pull_push; [exact R4|]. apply same_stack_pc. apply same_stack_less with 6; [exact S1|lia]. }
  assert (S2 : same_stack 5 p4 e2).
  { pose proof (same_stack_pop 5 _ _ _ R4 ltac:(lia) S1) as K1. eapply same_stack_any; [exact K1|reflexivity|reflexivity]. }
  set (e3 := wNZ (Y c0) (wY (Y c0) (wPC 53771 e2))).
  assert (G3 : runs (0 + 1 + 1 + 1) t e3).
  { eapply runs_next; [exact G2|]. intros u Su Vu Pu Ru. change (PC e2) with 53770 in Pu.
    pose proof (go_tay u Su ltac:(lia)) as G. change (m_a u) with (A (view u)) in G. rewrite Pu, Vu in G. apply G.
    change (m_memory u) with (M (view u)). rewrite Vu. apply (Mt e2 M1 10). lia. }
  assert (S3 : same_stack 5 p4 e3) by (eapply same_stack_any; [exact S2|reflexivity|reflexivity]).
  assert (M3 : M e3 = M (view t)) by exact M1. assert (P3 : PC e3 = 53771) by reflexivity. assert (Y3 : Y e3 = Y c0) by reflexivity.
  clear S1 S2 G1 G2 M1 P1. clearbody e3. clear e2 e1.
  (* PLA TAX *)
  set (e4 := wNZ (X c0) (wA (X c0) (wSP (SP p3) (wPC 53772 e3)))).
  assert (G4 : runs (0 + 1 + 1 + 1 + 1) t e4).
  { eapply runs_next; [exact G3|]. intros u Su Vu Pu Ru. rewrite P3 in Pu.
    pose proof (go_pla u (X c0) (wSP (SP p3) (wPC 53772 e3)) Su ltac:(lia)) as G. rewrite Pu, Vu in G. apply G.
    - change (m_memory u) with (M (view u)). rewrite Vu. apply (Mt e3 M3 11). lia.
    - apply pull_push; [exact R3|]. apply same_stack_pc. apply same_stack_less with 5; [exact S3|lia]. }
  assert (S4 : same_stack 4 p3 e4).
  { pose proof (same_stack_pop 4 _ _ _ R3 ltac:(lia) S3) as K1. eapply same_stack_any; [exact K1|reflexivity|reflexivity]. }
  set (e5 := wNZ (X c0) (wX (X c0) (wPC 53773 e4))).
  assert (G5 : runs (0 + 1 + 1 + 1 + 1 + 1) t e5).
  { eapply runs_next; [exact G4|]. intros u Su Vu Pu Ru. change (PC e4) with 53772 in Pu.
    pose proof (go_tax u Su ltac:(lia)) as G. change (m_a u) with (A (view u)) in G. rewrite Pu, Vu in G. apply G.
    change (m_memory u) with (M (view u)). rewrite Vu. apply (Mt e4 M3 12). lia. }
  assert (S5 : same_stack 4 p3 e5) by (eapply same_stack_any; [exact S4|reflexivity|reflexivity]).
  assert (M5 : M e5 = M (view t)) by exact M3. assert (P5 : PC e5 = 53773) by reflexivity. assert (Y5 : Y e5 = Y c0) by exact Y3. assert (X5 : X e5 = X c0) by reflexivity.
  clear S3 S4 G3 G4 M3 P3 Y3. clearbody e5. clear e4 e3.
  (* PLA RTI *)
  set (e6 := wNZ (A c0) (wA (A c0) (wSP (SP p2) (wPC 53774 e5)))).
  assert (G6 : runs (0 + 1 + 1 + 1 + 1 + 1 + 1) t e6).
  { eapply runs_next; [exact G5|]. intros u Su Vu Pu Ru. rewrite P5 in Pu.
    pose proof (go_pla u (A c0) (wSP (SP p2) (wPC 53774 e5)) Su ltac:(lia)) as G. rewrite Pu, Vu in G. apply G.
    - change (m_memory u) with (M (view u)). rewrite Vu. apply (Mt e5 M5 13). lia.
    - apply pull_push; [exact R2|]. apply same_stack_pc. apply same_stack_less with 4; [exact S5|lia]. }
  assert (S6 : same_stack 3 p2 e6).
  { pose proof (same_stack_pop 3 _ _ _ R2 ltac:(lia) S5) as K1. eapply same_stack_any; [exact K1|reflexivity|reflexivity]. }
  assert (M6 : M e6 = M (view t)) by exact M5. assert (P6 : PC e6 = 53774) by reflexivity. assert (Y6 : Y e6 = Y c0) by exact Y5. assert (X6 : X e6 = X c0) by exact X5.
  assert (A6 : A e6 = A c0) by reflexivity. clear S5 G5 M5 P5 Y5 X5. clearbody e6. clear e5.
  set (f1 := set_status (status true c0) (wSP (SP p1) (wPC 53775 e6))).
  assert (S7 : same_stack 2 p1 f1).
  { pose proof (same_stack_pop 2 _ _ _ R1 ltac:(lia) S6) as K1. eapply same_stack_any; [exact K1|reflexivity|reflexivity]. }
  assert (FL : flags_of f1 = flags_of c0) by apply status_flags.
  exists (wPC (PC c0) (wSP (SP c) f1)). split.
  - change 7%nat with (0 + 1 + 1 + 1 + 1 + 1 + 1 + 1)%nat. eapply runs_next; [exact G6|]. intros u Su Vu Pu Ru. rewrite P6 in Pu.
    apply (go_rti u (status true c0) (wSP (SP p1) (wPC 53775 e6)) (PC c0) (wSP (SP c) f1) Su); [lia| | | |exact BP|].
    + change (m_memory u) with (M (view u)). rewrite Vu, Pu. apply (Mt e6 M6 14). lia.
    + rewrite Pu, Vu. apply pull_push; [exact R1|]. apply same_stack_pc. apply same_stack_less with 3; [exact S6|lia].
    + apply pull_push_word; [exact Sp|exact BP|exact S7].
    + destruct Q as [Q|Q]; [left; now rewrite (rest_irq t u Ru)|right]. change (fI (wSP (SP c) f1)) with (fI f1). now rewrite (flags_fI _ _ FL).
  - split; [exact A6|]. split; [exact X6|]. split; [exact Y6|]. split; [reflexivity|]. split; [reflexivity|]. split; [exact FL|exact M6].
Qed.

(* ---- the call of the other types ---- *)
Lemma call6502_entry e s : let s1 := call6502 e s in
  code_at 53760 [32; e mod 256; e / 256 mod 256; 210] s1 /\ m_pc s1 = 53760 /\ same_memory_but 53760 53764 s s1 /\
  registers s1 = registers s /\ rest s1 = rest s /\ m_cycle s1 = m_cycle s.
Proof.
  intros s1. assert (E : m_memory s1 = st_list (m_memory s) 53760 [32; e mod 256; e / 256 mod 256; 210]).
  { unfold s1, call6502. cbn [m_memory set_m_pc set_m_memory]. rewrite shr8. reflexivity. }
  split; [|split; [reflexivity|split; [|split; [reflexivity|split; reflexivity]]]].
  - intros i Hi. unfold len in Hi. cbn [length] in Hi. rewrite E, ld_st_list by lia. change (len _) with 4.
    replace ((53760 <=? 53760 + i) && (53760 + i <? 53760 + 4)) with true by lia. f_equal. lia.
  - intros a Ha Na. rewrite E, ld_st_list by lia. change (len _) with 4. destruct ((53760 <=? a) && (a <? 53760 + 4)) eqn:X; [lia|reflexivity].
Qed.

Lemma call_entry s e : play_entry (i_type (m_info s)) (i_player (m_info s)) = Some e -> call6502_player s = Ok (call6502 e s).
Proof. unfold call6502_player. destruct (i_type (m_info s)); cbn [play_entry]; congruence. Qed.

Lemma called s e : cpu_ok s -> m_pc s = 53760 -> code_at 53760 [32; e mod 256; e / 256 mod 256; 210] s ->
  exists s2, execute s = Ok s2 /\ cpu_ok s2 /\ m_pc s2 = e mod 65536 /\ m_a s2 = m_a s /\ m_x s2 = m_x s /\ m_y s2 = m_y s /\ flags_of (view s2) = flags_of (view s) /\
    same_memory_but 256 512 s s2 /\ rest s2 = rest s /\
    forall t, cpu_ok t -> at_opcode 96 t -> same_stack 2 (view s2) (view t) -> ld (m_memory t) 53763 = 210 ->
    exists t1, execute t = Ok t1 /\ m_pc t1 = 53763 /\ registers t1 = (m_a t, m_x t, m_y t, m_s s, flags_of (view t)) /\ m_memory t1 = m_memory t /\ rest t1 = rest t /\
      execute t1 = Ok (set_m_cycle (m_nextEventCycle t1) t1).
Proof.
  intros H P C. assert (St : steady s) by (split; [exact H|]; rewrite P; unfold view; cbn [PC]; rewrite P; reflexivity).
  pose proof (C 0 ltac:(cbn; lia)) as C0. pose proof (C 1 ltac:(cbn; lia)) as C1. pose proof (C 2 ltac:(cbn; lia)) as C2.
  change (at_ _ 0) with 32 in C0. change (at_ _ 1) with (e mod 256) in C1. change (at_ _ 2) with (e / 256 mod 256) in C2.
  pose proof (go_jsr s St) as G. rewrite P in G. change (53760 + 0) with 53760 in C0. specialize (G ltac:(lia) C0 ltac:(lia)). rewrite C1, C2 in G.
  replace (e mod 256 + 256 * (e / 256 mod 256)) with (e mod 65536) in G by lia.
  destruct G as (s2 & E & V & H2 & P2 & R2). exists s2. split; [exact E|]. split; [exact H2|]. split; [rewrite P2; reflexivity|].
  split; [change (m_a s2) with (A (view s2)); rewrite V; reflexivity|].
  split; [change (m_x s2) with (X (view s2)); rewrite V; reflexivity|].
  split; [change (m_y s2) with (Y (view s2)); rewrite V; reflexivity|].
  split; [rewrite V; reflexivity|]. pose proof (sp_view s H) as Sp. split; [|split; [exact R2|]].
  - intros a Ha Na. change (m_memory s2) with (M (view s2)). rewrite V. unfold push_word, push_byte. cbn [M SP wM wSP wPC].
    rewrite !ld_st_other; [reflexivity|unfold w8; lia..].
  - intros t Ht [Pt Ot] Ss C3. assert (Stt : steady t) by (split; [exact Ht|]; unfold view; cbn [PC]; lia).
    rewrite V in Ss. set (p := wPC (53760 + 1) (view s)) in *.
    assert (PW : pull_word (wPC (m_pc t + 1) (view t)) = (53762, wSP (SP p) (wPC (m_pc t + 1) (view t)))).
    { apply pull_push_word; [exact Sp|lia|]. apply same_stack_pc. eapply same_stack_any with (t := view t); [|reflexivity|reflexivity]. exact Ss. }
    destruct (go_rts t _ _ Stt ltac:(lia) Ot PW ltac:(lia)) as (t1 & Et & Vt & Ht1 & Pt1 & Rt). change (53762 + 1) with 53763 in *. exists t1. split; [exact Et|]. split; [exact Pt1|].
    split; [|split; [|split; [exact Rt|]]].
    + unfold registers. change (m_a t1) with (A (view t1)). change (m_x t1) with (X (view t1)). change (m_y t1) with (Y (view t1)). change (m_s t1) with (SP (view t1)). rewrite Vt. reflexivity.
    + change (m_memory t1) with (M (view t1)). rewrite Vt. reflexivity.
    + assert (P1 : m_pc t1 = 53763) by exact Pt1. assert (M1 : m_memory t1 = m_memory t) by (change (m_memory t1) with (M (view t1)); rewrite Vt; reflexivity).
      rewrite (dispatch 210 2 t1); [|split; [exact Ht1|rewrite Vt; exact Pt1]|rewrite M1, P1; exact C3|reflexivity].
      cbn [first_switch run_mode bind done]. f_equal. clear - P1. destruct t1. unfold fetched, skip, add_cycles. cbn in *.
      unfold set_m_cycle, set_m_pc; cbn. f_equal. lia.
Qed.

Lemma player_d s : cpu_ok s -> 0 <= m_pc s < 65536 -> i_type (m_info s) = SAP_D -> 0 <= i_player (m_info s) < 65536 ->
  exists s1 s2, call6502_player s = Ok s1 /\ rest s1 = rest s /\ executes 7 s1 = Ok s2 /\ cpu_ok s2 /\ m_pc s2 = i_player (m_info s) /\ m_x s2 = m_x s /\ m_y s2 = m_y s /\
    m_s s2 = (m_s s - 8) mod 256 /\ (forall a, 512 <= a -> ~ 53760 <= a < 53775 -> ld (m_memory s2) a = ld (m_memory s) a) /\
    forall t, cpu_ok t -> at_opcode 96 t -> same_stack 8 (view s2) (view t) ->
      (forall a, 53769 <= a < 53775 -> ld (m_memory t) a = ld (m_memory s2) a) -> quiet s t ->
    exists t', executes 7 t = Ok t' /\ m_pc t' = m_pc s /\ registers t' = registers s /\ m_memory t' = m_memory t /\ rest t' = rest t.
Proof.
  intros H P T Pl. destruct (view_entered _ s (view s) eq_refl H Pl T eq_refl) as (s1 & E1 & c2 & G & K1 & K2 & K3 & _ & K4 & K5 & K6 & K7 & _ & _ & _ & _ & R1).
  destruct G as (s2 & E2 & V2 & H2 & P2 & R2). exists s1, s2. split; [exact E1|]. split; [exact R1|]. split; [exact E2|]. split; [exact H2|]. split; [now rewrite P2, K1|].
  split; [change (m_x s2) with (X (view s2)); now rewrite V2, K2|]. split; [change (m_y s2) with (Y (view s2)); now rewrite V2, K3|].
  split; [change (m_s s2) with (SP (view s2)); rewrite V2, K4; unfold pushed, push_word, push_byte, w8; cbn [SP wSP wM view]; change (SP (view s)) with (m_s s); lia|].
  split; [intros a Ha Na; change (m_memory s2) with (M (view s2)); rewrite V2; now apply K7|].
  intros t Ht [Pt Ot] Ss C Q. assert (St : steady t) by (split; [exact Ht|]; unfold view; cbn [PC]; lia).
  destruct (player_returns (view s) (view s) (i_player (m_info s)) t) as (d & Gd & D1 & D2 & D3 & D4 & D5 & D6 & D7).
  - exact (sp_view s H).
  - apply (ok_a _ H).
  - apply (ok_x _ H).
  - apply (ok_y _ H).
  - apply pc_view.
  - exact St.
  - lia.
  - exact Ot.
  - destruct Ss as [Ss1 Ss2]. split; [rewrite Ss1, V2; exact K4|]. intros i Hi. rewrite <- K4, <- V2, Ss2 by exact Hi. rewrite V2. now apply K5.
  - intros i Hi. rewrite C by lia. change (m_memory s2) with (M (view s2)). rewrite V2. apply K6. lia.
  - destruct Q as [Q|Q]; [left; exact Q|right; exact Q].
  - destruct Gd as (t' & Et & Vt & Ht' & Pt' & Rt). exists t'. split; [exact Et|].
    split; [rewrite Pt', D5; unfold view; cbn [PC]; lia|]. split; [|split; [change (m_memory t') with (M (view t')); now rewrite Vt, D7|exact Rt]].
    unfold registers. change (m_a t') with (A (view t')). change (m_x t') with (X (view t')). change (m_y t') with (Y (view t')). change (m_s t') with (SP (view t')).
    rewrite Vt, D1, D2, D3, D4, D6. reflexivity.
Qed.

Lemma player_d_none s : i_type (m_info s) = SAP_D -> i_player (m_info s) < 0 -> call6502_player s = Ok s.
Proof. intros T P. unfold call6502_player. rewrite T. unfold call_player_d. now replace (0 <=? i_player (m_info s)) with false by lia. Qed.

Lemma player_s s : i_type (m_info s) = SAP_S -> cpu_ok s ->
  exists s1, call6502_player s = Ok s1 /\ m_pc s1 = m_pc s /\ registers s1 = registers s /\ rest s1 = rest s /\
    ld (m_memory s1) 0x45 = (ld (m_memory s) 0x45 - 1) mod 256 /\
    ld (m_memory s1) 0xB07B = (ld (m_memory s) 0xB07B + (if ld (m_memory s) 0x45 =? 1 then 1 else 0)) mod 256 /\
    forall a, 0 <= a -> a <> 0x45 -> a <> 0xB07B -> ld (m_memory s1) a = ld (m_memory s) a.
Proof.
  intros T H. unfold call6502_player. rewrite T. eexists. split; [reflexivity|]. unfold call_player_s. cbv zeta.
  split; [reflexivity|]. split; [reflexivity|]. split; [reflexivity|]. cbn [m_memory set_m_memory].
  pose proof (ld_byte s 45179 H) as B.
  assert (O : ld (st (m_memory s) 69 (u8 (ld (m_memory s) 69 - 1))) 45179 = ld (m_memory s) 45179) by (apply ld_st_other; lia).
  replace (ld (m_memory s) 69 - 1 =? 0) with (ld (m_memory s) 69 =? 1) by lia. destruct (ld (m_memory s) 69 =? 1).
  - rewrite O. split; [rewrite ld_st_other, ld_st_same by lia; reflexivity|]. split; [rewrite ld_st_same; reflexivity|].
    intros a Ha N1 N2. rewrite !ld_st_other by lia. reflexivity.
  - split; [rewrite ld_st_same; reflexivity|]. split; [rewrite O; lia|]. intros a Ha N1 N2. rewrite ld_st_other by lia. reflexivity.
Qed.

Lemma player_tmc s : i_type (m_info s) = TMC -> 0 <= i_music (m_info s) -> i_music (m_info s) + 31 < 65536 ->
  let n := m_tmcPerFrameCounter s - 1 in
  call6502_player s = Ok (if 1 <=? n then call6502 (i_player (m_info s) + 6) (set_m_tmcPerFrameCounter n s)
    else call6502 (i_player (m_info s) + 3) (set_m_tmcPerFrameCounter (ld (m_memory s) (i_music (m_info s) + 31)) s)).
Proof.
  intros T L U n. unfold call6502_player. rewrite T. cbv zeta. fold n. destruct (Z_le_gt_dec n 0) as [G|G].
  - replace (n <=? 0) with true by lia. replace (1 <=? n) with false by lia. rewrite mem_rd_ok by (cbn [m_info set_m_tmcPerFrameCounter]; lia). reflexivity.
  - replace (n <=? 0) with false by lia. replace (1 <=? n) with true by lia. reflexivity.
Qed.

(* ---- initialisation calls ---- *)
Lemma init_returns t : cpu_ok t -> at_opcode 96 t -> m_s t = 253 -> code_at 510 [255; 209] t -> ld (m_memory t) 53760 = 210 ->
  exists t1, execute t = Ok t1 /\ m_pc t1 = 53760 /\ m_memory t1 = m_memory t /\ execute t1 = Ok (set_m_cycle (m_nextEventCycle t1) t1).
Proof.
  intros Ht [Pt Ot] Hs C O. assert (St : steady t) by (split; [exact Ht|]; unfold view; cbn [PC]; lia).
  pose proof (C 0 ltac:(cbn; lia)) as C0. pose proof (C 1 ltac:(cbn; lia)) as C1. change (at_ _ 0) with 255 in C0. change (at_ _ 1) with 209 in C1. change (510 + 0) with 510 in C0. change (510 + 1) with 511 in C1.
  assert (PW : pull_word (wPC (m_pc t + 1) (view t)) = (53759, wSP 255 (wPC (m_pc t + 1) (view t)))).
  { unfold pull_word, pull_byte. cbn [SP M wSP wPC]. change (SP (view t)) with (m_s t). change (M (view t)) with (m_memory t). rewrite Hs.
    change (256 + w8 (253 + 1)) with 510. change (256 + w8 (w8 (253 + 1) + 1)) with 511. rewrite C0, C1. reflexivity. }
  destruct (go_rts t _ _ St ltac:(lia) Ot PW ltac:(lia)) as (t1 & Et & Vt & Ht1 & Pt1 & Rt). change (53759 + 1) with 53760 in *.
  assert (P1 : m_pc t1 = 53760) by exact Pt1. assert (M1 : m_memory t1 = m_memory t) by (change (m_memory t1) with (M (view t1)); rewrite Vt; reflexivity).
  exists t1. split; [exact Et|]. split; [exact P1|]. split; [exact M1|].
  rewrite (dispatch 210 2 t1); [|split; [exact Ht1|rewrite Vt; exact Pt1]|rewrite M1, P1; exact O|reflexivity].
  cbn [first_switch run_mode bind done]. f_equal. clear - P1. destruct t1. unfold fetched, skip, add_cycles. cbn in *.
  unfold set_m_cycle, set_m_pc; cbn. f_equal. lia.
Qed.

(* ---- events ---- *)
Definition on_line (v c : Z) (s : asap) : asap := set_m_nextScanlineCycle v (set_m_cycle c s).
Lemma call_on_line v c s : call6502_player (on_line v c s) = (t <- call6502_player s ;; Ok (on_line v c t)).
Proof.
  unfold call6502_player. change (m_info (on_line v c s)) with (m_info s). destruct (i_type (m_info s)); try reflexivity.
  - unfold call_player_d. destruct (0 <=? i_player (m_info s)); [|reflexivity]. unfold push_pc, push, mem_wr.
    change (m_memory (on_line v c s)) with (m_memory s). change (m_s (on_line v c s)) with (m_s s). change (m_pc (on_line v c s)) with (m_pc s).
    destruct (wr (m_memory s) (256 + m_s s) (Z.shiftr (m_pc s) 8)) as [m| | |]; cbn [bind]; try reflexivity.
    cbn [m_memory m_s m_pc set_m_memory set_m_s on_line set_m_nextScanlineCycle set_m_cycle].
    destruct (wr m _ _) as [m2| | |]; cbn [bind]; reflexivity.
  - cbv zeta. change (m_tmcPerFrameCounter (on_line v c s)) with (m_tmcPerFrameCounter s).
    destruct (m_tmcPerFrameCounter s - 1 <=? 0); [|reflexivity]. unfold mem_rd. change (m_memory (set_m_tmcPerFrameCounter _ (on_line v c s))) with (m_memory s).
    change (m_memory (set_m_tmcPerFrameCounter (m_tmcPerFrameCounter s - 1) s)) with (m_memory s). destruct (rd _ _); reflexivity.
Qed.

Lemma call_keeps s s1 : call6502_player s = Ok s1 ->
  m_info s1 = m_info s /\ m_nextPlayerCycle s1 = m_nextPlayerCycle s /\ m_nextScanlineCycle s1 = m_nextScanlineCycle s /\ m_cycle s1 = m_cycle s /\ m_nextEventCycle s1 = m_nextEventCycle s /\ m_pokeys s1 = m_pokeys s.
Proof.
  unfold call6502_player. destruct (i_type (m_info s)); intros E; try (assert (S : s1 = call6502 _ s) by (injection E as <-; reflexivity); rewrite S; repeat split; fail); try (injection E as <-; repeat split).
  - unfold call_player_d in E. destruct (0 <=? i_player (m_info s)); [|injection E as <-; repeat split]. unfold push_pc, push, mem_wr in E.
    destruct (wr _ _ _) as [m| | |]; cbn [bind] in E; try discriminate E. destruct (wr _ _ _) as [m2| | |]; cbn [bind] in E; try discriminate E.
    injection E as <-. repeat split.
  - cbv zeta in E. destruct (_ <=? 0).
    + destruct (mem_rd _ _); cbn [bind] in E; try discriminate E. injection E as <-. repeat split.
    + injection E as <-. repeat split.
Qed.

(* what an event leaves: everything a program can see is that of u *)
Definition same_program_state (u s : asap) : Prop :=
  m_memory s = m_memory u /\ m_pc s = m_pc u /\ registers s = registers u /\ m_tmcPerFrameCounter s = m_tmcPerFrameCounter u /\ m_info s = m_info u.

Lemma event_tail cycle s s' :
  (let pp := m_pokeys s in
   let '(next, base) := pokey_check_irq cycle (m_nextScanlineCycle s) (pp_basePokey pp) in
   let '(next, extra) := pokey_check_irq cycle next (pp_extraPokey pp) in
   Ok (set_m_nextEventCycle next (set_m_pokeys (set_pp_extraPokey extra (set_pp_basePokey base pp)) s))) = Ok s' ->
  same_program_state s s' /\ m_cycle s' = m_cycle s /\ m_nextScanlineCycle s' = m_nextScanlineCycle s /\ m_nextPlayerCycle s' = m_nextPlayerCycle s /\
  exists p1 p2 n1 p3, pokey_check_irq cycle (m_nextScanlineCycle s) (pp_basePokey (m_pokeys s)) = (n1, p1) /\ pokey_check_irq cycle n1 p2 = (m_nextEventCycle s', p3).
Proof.
  cbv zeta. destruct (pokey_check_irq cycle (m_nextScanlineCycle s) (pp_basePokey (m_pokeys s))) as [n1 b] eqn:E1.
  destruct (pokey_check_irq cycle n1 (pp_extraPokey (m_pokeys s))) as [n2 x] eqn:E2. intros E. injection E as <-.
  split; [repeat split|]. split; [reflexivity|]. split; [reflexivity|]. split; [reflexivity|]. exists b, (pp_extraPokey (m_pokeys s)), n1, x. split; [reflexivity|exact E2].
Qed.

Lemma handle_event_cases s s' : handle_event s = Ok s' ->
  (~ line_starts s /\ same_program_state s s' /\ m_cycle s' = m_cycle s /\ m_nextScanlineCycle s' = m_nextScanlineCycle s /\ m_nextPlayerCycle s' = m_nextPlayerCycle s) \/
  (line_starts s /\ m_cycle s' = m_cycle s + refresh s /\ m_nextScanlineCycle s' = m_nextScanlineCycle s + 114 /\
   ((~ player_due s /\ same_program_state s s' /\ m_nextPlayerCycle s' = m_nextPlayerCycle s) \/
    (player_due s /\ m_nextPlayerCycle s' = m_nextPlayerCycle s + 114 * i_fastplay (m_info s) /\
     exists s1, call6502_player s = Ok s1 /\ same_program_state s1 s'))).
Proof.
  unfold handle_event. intros E. apply bind_ok in E. destruct E as (s0 & E0 & E). apply event_tail in E. destruct E as (K1 & K2 & K3 & K4 & _).
  destruct (m_nextScanlineCycle s <=? m_cycle s) eqn:L.
  - right. split; [unfold line_starts; lia|]. cbv zeta in E0.
    assert (X : set_m_nextScanlineCycle (m_nextScanlineCycle (if m_cycle s - m_nextScanlineCycle s <? 50 then set_m_cycle (m_cycle s + 9) s else s) + 114)
       (if m_cycle s - m_nextScanlineCycle s <? 50 then set_m_cycle (m_cycle s + 9) s else s) = on_line (m_nextScanlineCycle s + 114) (m_cycle s + refresh s) s).
    { unfold refresh, on_line. destruct (_ <? 50); [reflexivity|]. rewrite Z.add_0_r. destruct s. reflexivity. }
    rewrite X in E0. clear X. change (m_nextPlayerCycle (on_line _ _ s)) with (m_nextPlayerCycle s) in E0. change (m_cycle (on_line ?v ?c s)) with c in E0.
    destruct (m_nextPlayerCycle s <=? m_cycle s + refresh s) eqn:D.
    + apply bind_ok in E0. destruct E0 as (s1 & E1 & E2). rewrite call_on_line in E1. apply bind_ok in E1. destruct E1 as (t & Et & E1).
      assert (s1 = on_line (m_nextScanlineCycle s + 114) (m_cycle s + refresh s) t) as -> by congruence. destruct (call_keeps s t Et) as (T1 & T2 & _).
      assert (S0 : s0 = set_m_nextPlayerCycle (m_nextPlayerCycle t + 114 * i_fastplay (m_info t)) (on_line (m_nextScanlineCycle s + 114) (m_cycle s + refresh s) t)) by (injection E2 as <-; reflexivity).
      rewrite S0 in *. split; [exact K2|]. split; [exact K3|]. right. split; [split; [unfold line_starts; lia|lia]|].
      split; [rewrite K4; cbn [m_nextPlayerCycle set_m_nextPlayerCycle]; now rewrite T1, T2|]. exists t. split; [exact Et|]. exact K1.
    + assert (S0 : s0 = on_line (m_nextScanlineCycle s + 114) (m_cycle s + refresh s) s) by congruence. rewrite S0 in *.
      split; [exact K2|]. split; [exact K3|]. left. split; [intros [_ G]; lia|]. split; [exact K1|exact K4].
  - left. assert (s0 = s) as -> by congruence. split; [unfold line_starts; lia|]. auto.
Qed.
