(* The decompressor does what the format says *)
From Verif Require Import Base BaseFacts MemModel CpuSpec FlashSpec UnpackSpec UnpackStep.

(* flags not used yet, as the decompressor keeps them *)
Fixpoint enc (fl : list bool) : Z := match fl with [] => 128 | f :: fl => 128 * b2z f + enc fl / 2 end.

Lemma enc_facts fl : (length fl <= 7)%nat -> exists q, enc fl = q * 2 ^ (7 - len fl) /\ byte (enc fl) /\ 0 < q.
Proof.
  induction fl as [|f fl IH]; intros L.
  - exists 1. cbn. unfold byte. lia.
  - cbn [length] in L. destruct (IH ltac:(lia)) as (q & Eq & B & Q). cbn [enc]. rewrite len_cons. unfold len in *.
    assert (H2 : 2 ^ (7 - Z.of_nat (length fl)) = 2 * 2 ^ (7 - (1 + Z.of_nat (length fl)))) by (rewrite <- Z.pow_succ_r by lia; f_equal; lia).
    assert (E2 : enc fl / 2 = q * 2 ^ (7 - (1 + Z.of_nat (length fl)))).
    { rewrite Eq, H2. replace (q * (2 * 2 ^ (7 - (1 + Z.of_nat (length fl))))) with (q * 2 ^ (7 - (1 + Z.of_nat (length fl))) * 2) by ring. apply Z.div_mul. lia. }
    exists (b2z f * 2 ^ (1 + Z.of_nat (length fl)) + q). split; [|split].
    + assert (E7 : 2 ^ (1 + Z.of_nat (length fl)) * 2 ^ (7 - (1 + Z.of_nat (length fl))) = 128) by (rewrite <- Z.pow_add_r by lia; replace (1 + Z.of_nat (length fl) + (7 - (1 + Z.of_nat (length fl)))) with 7 by lia; reflexivity).
      rewrite E2, Z.mul_add_distr_r, <- E7. ring.
    + unfold byte in *. destruct f; cbn [b2z]; lia.
    + pose proof (Z.pow_pos_nonneg 2 (1 + Z.of_nat (length fl)) ltac:(lia) ltac:(lia)). destruct f; cbn [b2z]; nia.
Qed.
Lemma enc_pos fl : (length fl <= 7)%nat -> 0 < enc fl < 256.
Proof.
  intros L. destruct (enc_facts fl L) as (q & E & B & Q). unfold byte, len in *.
  pose proof (Z.pow_pos_nonneg 2 (7 - Z.of_nat (length fl)) ltac:(lia) ltac:(lia)). nia.
Qed.
Lemma enc_pop f fl : (length fl <= 6)%nat -> (128 <=? enc (f :: fl)) = f /\ (2 * enc (f :: fl)) mod 256 = enc fl.
Proof.
  intros L. destruct (enc_facts fl ltac:(lia)) as (q & E & B & Q). unfold byte, len in *. cbn [enc].
  assert (H2 : enc fl mod 2 = 0).
  { rewrite E. replace (7 - Z.of_nat (length fl)) with (Z.succ (6 - Z.of_nat (length fl))) by lia. rewrite Z.pow_succ_r by lia.
    replace (q * (2 * 2 ^ (6 - Z.of_nat (length fl)))) with (q * 2 ^ (6 - Z.of_nat (length fl)) * 2) by ring. apply Z.mod_mul. lia. }
  destruct f; cbn [b2z]; split; lia.
Qed.
Lemma enc_bits v : byte v -> (128 <=? v) = Z.testbit v 7 /\ (2 * v + 1) mod 256 = enc (tl (bits v)).
Proof.
  intros B. unfold byte in B.
  assert (H : forallb (fun v => Bool.eqb (128 <=? v) (Z.testbit v 7) && ((2 * v + 1) mod 256 =? enc (tl (bits v)))) (map Z.of_nat (seq 0 256)) = true) by (vm_compute; reflexivity).
  rewrite forallb_forall in H. specialize (H v). rewrite andb_true_iff, Bool.eqb_true_iff, Z.eqb_eq in H. apply H.
  apply in_map_iff. exists (Z.to_nat v). split; [lia|]. apply in_seq. lia.
Qed.
Lemma bits_cons v : bits v = Z.testbit v 7 :: tl (bits v). Proof. reflexivity. Qed.
Lemma enc_none : enc (repeat false 7) = 1. Proof. reflexivity. Qed.

Section Depack.
Variable s0 : cpu.
Variables org source start sp : Z.
Hypothesis Hs : 512 <= source.
Hypothesis Ho : source <= org /\ org + 88 <= 65500.
Hypothesis Hr : 0 <= start < 65536.
Hypothesis Hsp : byte sp.
Notation At := (At s0).

Definition code (m : mem) : Prop := forall k, 0 <= k < 88 -> k <> 1 -> k <> 2 -> k <> 26 -> ld m (org + k) = at_ (depacker org source start) k.
Lemma code_at m k v p : code m -> at_ (depacker org source start) k = v -> 0 <= k < 88 -> k <> 1 -> k <> 2 -> k <> 26 -> p = org + k -> ld m p = v.
Proof. intros H <- ? ? ? ? ->. now apply H. Qed.
Lemma code_w2 m k p q : code m -> at_ (depacker org source start) (k + 1) = q mod 256 -> at_ (depacker org source start) (k + 2) = q / 256 ->
  2 <= k < 86 -> k <> 24 -> k <> 25 -> p = org + k -> w2 m p = q.
Proof.
  intros H E1 E2 ? ? ? ->. unfold w2. replace (org + k + 1) with (org + (k + 1)) by lia. replace (org + k + 2) with (org + (k + 2)) by lia.
  rewrite !H by lia. rewrite E1, E2. lia.
Qed.

(* code, pointer and the bytes not read yet *)
Record Reading (m : mem) (rest : list Z) : Prop := {
  r_code : code m;
  r_bytes : byte_mem m;
  r_ptr : ld m (org + 1) + 256 * ld m (org + 2) = org - len rest;
  r_len : len rest <= org - source;
  r_rest : holds m (org - len rest) rest }.

(* memory changes only where told *)
Definition differ (m m' : mem) (P : Z -> Prop) : Prop := forall a, 0 <= a -> ~ P a -> ld m' a = ld m a.
Definition stacked (a : Z) : Prop := a = 256 + sp \/ a = 256 + w8 (sp - 1).

Lemma stack_range : 256 <= 256 + sp < 512 /\ 256 <= 256 + w8 (sp - 1) < 512.
Proof. unfold byte in Hsp. unfold w8. lia. Qed.

Lemma reading_differ m m' rest : Reading m rest -> byte_mem m' ->
  differ m m' (fun a => ~ (org - len rest <= a < org + 88) \/ a = org + 26) -> Reading m' rest.
Proof.
  intros [C B P L R] B' D. pose proof (len_nonneg rest) as N. constructor; try assumption.
  - intros k K1 K2 K3 K4. rewrite D by lia. now apply C.
  - rewrite !D by lia. exact P.
  - intros i Hi. rewrite D by lia. now apply R.
Qed.

Ltac cd k := let v := eval cbv [at_ depacker word app Z.to_nat Pos.to_nat Pos.iter_op Init.Nat.add nth] in (at_ (depacker org source start) k) in
  first [eapply (code_at _ k v); [eassumption|reflexivity|lia|lia|lia|lia|lia] | eapply (code_w2 _ k); [eassumption|reflexivity|reflexivity|lia|lia|lia|lia]].
Ltac sg := match goal with |- context [signed ?v] => let w := eval cbv in (signed v) in change (signed v) with w end; lia.
Lemma at_pc a x y s pc pc' z k m : At a x y s pc z k m -> pc = pc' -> At a x y s pc' z k m.
Proof. now intros H <-. Qed.

(* getByte, called from org + j *)
Lemma get_byte a x y z k m j v rest :
  At a x y sp (org + j) z k m -> Reading m (v :: rest) -> 11 < j < 86 -> ld m (org + j) = 32 -> w2 m (org + j) = org ->
  exists z' m', At v x y sp (org + j + 3) z' k m' /\ Reading m' rest /\ differ m m' (fun a => stacked a \/ a = org + 1 \/ a = org + 2) /\ byte v.
Proof.
  intros H R Hj H32 Hw. pose proof stack_range as SR. destruct R as [C B P L RR]. pose proof (len_nonneg rest) as N. rewrite len_cons in *.
  unfold byte in Hsp.
  remember (org - (1 + len rest)) as ptr eqn:Eptr.
  eapply i_jsr in H; [|lia|exact H32|exact Hw|exact Hsp].
  set (m1 := pushed m sp (org + j + 2)) in *.
  assert (D1 : differ m m1 stacked).
  { intros b Hb Nb. unfold m1, pushed, stacked in *. rewrite !ld_st_other by lia. reflexivity. }
  assert (B1 : byte_mem m1).
  { unfold m1, pushed. apply byte_mem_st; [apply byte_mem_st; [exact B|]|]; unfold byte; lia. }
  assert (C1 : code m1). { intros q ? ? ? ?. rewrite D1 by (unfold stacked; lia). now apply C. }
  assert (P1 : w2 m1 org = ptr). { unfold w2. rewrite !D1 by (unfold stacked; lia). exact P. }
  assert (V1 : ld m1 ptr = v).
  { rewrite D1 by (unfold stacked; lia). replace ptr with (ptr + 0) by lia. rewrite RR by (rewrite len_cons; lia). reflexivity. }
  assert (Bv : byte v) by (rewrite <- V1; apply B1).
  eapply i_lda_abs in H; [|lia|cd 0|exact P1]. rewrite V1 in H.
  eapply i_inc_abs in H; [|lia|cd 3|cd 3].
  pose proof (B1 (org + 1)) as Blo. pose proof (B1 (org + 2)) as Bhi. unfold byte in Blo, Bhi. unfold w2 in P1.
  set (lo := ld m1 (org + 1)) in *. set (hi := ld m1 (org + 2)) in *.
  set (m2 := st m1 (org + 1) ((lo + 1) mod 256)) in *.
  assert (B2 : byte_mem m2) by (apply byte_mem_st; [exact B1|unfold byte; lia]).
  assert (L2 : ld m2 (org + 1) = (lo + 1) mod 256) by apply ld_st_same.
  assert (H2 : ld m2 (org + 2) = hi) by (unfold m2; rewrite ld_st_other by lia; reflexivity).
  assert (C2 : code m2). { intros q ? ? ? ?. unfold m2. rewrite ld_st_other by lia. now apply C1. }
  eapply i_bne with (t := org + 11) in H; [|lia|cd 6|cd 7|sg|lia].
  assert (K : exists z' m3, At v x y (w8 (sp - 2)) (org + 11) z' k m3 /\ byte_mem m3 /\ differ m1 m3 (fun a => a = org + 1 \/ a = org + 2) /\ ld m3 (org + 1) + 256 * ld m3 (org + 2) = ptr + 1).
  { destruct (Z.eqb_spec ((lo + 1) mod 256) 0) as [Z0|Z0].
    - eapply (at_pc _ _ _ _ _ (org + 8)) in H; [|lia].
      eapply i_inc_abs in H; [|lia|cd 8|cd 8].
      eexists _, _. split; [eapply at_pc; [exact H|lia]|]. split; [apply byte_mem_st; [exact B2|unfold byte; lia]|]. split.
      + intros b Hb Nb. unfold m2. rewrite !ld_st_other by lia. reflexivity.
      + rewrite ld_st_same, ld_st_other, L2, H2 by lia. lia.
    - eexists _, _. split; [eapply at_pc; [exact H|lia]|]. split; [exact B2|]. split.
      + intros b Hb Nb. unfold m2. rewrite !ld_st_other by lia. reflexivity.
      + rewrite L2, H2. lia. }
  clear H. destruct K as (z' & m3 & H & B3 & D3 & P3).
  assert (C3 : code m3). { intros q ? ? ? ?. rewrite D3 by lia. now apply C1. }
  assert (S1 : w8 (w8 (sp - 2) + 1) = w8 (sp - 1)) by (unfold w8; lia).
  assert (S2 : w8 (w8 (sp - 1) + 1) = sp) by (unfold w8; lia).
  assert (S3 : w8 (sp - 1) <> sp) by (unfold w8; lia).
  assert (RT : ld m3 (256 + w8 (w8 (sp - 2) + 1)) + 256 * ld m3 (256 + w8 (w8 (w8 (sp - 2) + 1) + 1)) = org + j + 2).
  { rewrite S1, S2, !D3 by lia. unfold m1, pushed. rewrite ld_st_same, ld_st_other, ld_st_same by lia. lia. }
  eapply i_rts in H; [|lia|cd 11|exact RT|lia].
  rewrite S1, S2 in H.
  exists z', m3. split; [eapply at_pc; [exact H|lia]|]. split; [|split; [|exact Bv]].
  - constructor; try assumption; try lia.
    intros i Hi. rewrite D3 by lia. rewrite D1 by (unfold stacked; lia).
    replace (org - len rest + i) with (ptr + (i + 1)) by lia. rewrite RR by (rewrite len_cons; lia). rewrite at_cons_S by lia. f_equal. lia.
  - intros b Hb Nb. rewrite D3 by tauto. apply D1; tauto.
Qed.

(* what has been unpacked; the page of the address is known once the address has been set *)
Record Out (r : bool) (m : mem) (y : Z) (u : unpacker) : Prop := {
  o_dist : u_dist u = 128 - ld m 254;
  o_agree : forall a, 0 <= a < 65536 -> ~ own org sp a -> ld m a = u_mem u a;
  o_page : r = true -> byte y /\ ld m (org + 26) = ld m 255 /\ u_addr u = (256 * ld m 255 + 128 + y) mod 65536 }.

Lemma out_differ r m m' y u : Out r m y u -> differ m m' (fun a => stacked a \/ a = org + 1 \/ a = org + 2) ->
  Out r m' y u /\ ld m' 252 = ld m 252 /\ ld m' 253 = ld m 253.
Proof.
  intros [O1 O2 O3] D. pose proof stack_range as SR. unfold stacked in D. split; [|split; apply D; lia].
  constructor.
  - rewrite D by lia. exact O1.
  - intros a Ha Na. rewrite D by (unfold own in Na; lia). now apply O2.
  - intros ->. rewrite !D by lia. now apply O3.
Qed.

Lemma put_at a x y z k m rest u :
  At a x y sp (org + 24) z k m -> Reading m rest -> Out true m y u -> byte a -> free org sp (u_addr u, len rest) ->
  exists a' y' z' k' m', At a' x y' sp (org + 39) z' k' m' /\ Reading m' rest /\ Out true m' y' (put_byte u a) /\
    ld m' 252 = ld m 252 /\ ld m' 253 = ld m 253.
Proof.
  intros H R O Ba [F1 F2]. pose proof stack_range as SR. pose proof (len_nonneg rest) as N.
  destruct O as [O1 O2 O3]. destruct (O3 eq_refl) as (By & Pg & Ua). pose proof (r_bytes _ _ R) as Bm. pose proof (r_code _ _ R) as C. pose proof (r_len _ _ R) as RL.
  pose proof (Bm 255) as B255. unfold byte in By, B255.
  set (p := ld m 255) in *. set (ua := u_addr u) in *.
  assert (Hua : 0 <= ua < 65536) by lia.
  assert (W : (w2 m (org + 24) + y) mod 65536 = ua).
  { unfold w2. rewrite (code_at m 25 128 (org + 24 + 1)); [|exact C|reflexivity|lia|lia|lia|lia|lia].
    replace (org + 24 + 2) with (org + 26) by lia. rewrite Pg, Ua. f_equal. lia. }
  eapply i_sta_absy in H; [|lia|cd 24|exact W].
  set (m1 := st m ua a) in *.
  assert (D1 : forall b, 0 <= b -> b <> ua -> ld m1 b = ld m b) by (intros; apply ld_st_other; lia).
  assert (B1 : byte_mem m1) by (apply byte_mem_st; [exact Bm|exact Ba]).
  assert (R1 : Reading m1 rest) by (apply (reading_differ m); [exact R|exact B1|intros b Hb Nb; apply D1; lia]).
  pose proof (r_code _ _ R1) as C1.
  unfold own in F1.
  assert (A1 : forall b, 0 <= b < 65536 -> ~ own org sp b -> ld m1 b = store_at (u_mem u) ua a b).
  { intros b Hb Nb. unfold store_at. destruct (Z.eqb_spec b ua) as [->|Ne]; [apply ld_st_same|]. rewrite D1 by lia. now apply O2. }
  clearbody m1. eapply i_iny in H; [|lia|cd 27].
  eapply i_bne with (t := org + 39) in H; [|lia|cd 28|cd 29|sg|lia].
  destruct (Z.eqb_spec ((y + 1) mod 256) 0) as [Y0|Y0].
  - eapply (at_pc _ _ _ _ _ (org + 30)) in H; [|lia].
    eapply i_tya in H; [|lia|cd 30]. eapply i_sec in H; [|lia|cd 31]. eapply i_adc_zp in H; [|lia|cd 32|cd 33].
    rewrite (D1 255) in H by lia. fold p in H. set (p' := ((y + 1) mod 256 + p + b2z true) mod 256) in *.
    assert (Ep' : p' = (p + 1) mod 256) by (unfold p'; rewrite Y0; cbn [b2z]; f_equal; lia). clearbody p'.
    eapply i_sta_zp in H; [|lia|cd 34|cd 35].
    assert (C2 : code (st m1 255 p')) by (intros q ? ? ? ?; rewrite ld_st_other by lia; now apply C1).
    eapply i_sta_abs in H; [|lia|cd 36|cd 36].
    eexists _, _, _, _, _. split; [eapply at_pc; [exact H|lia]|].
    assert (Bp : byte p') by (unfold byte; lia).
    split; [|split; [|split]].
    + apply (reading_differ m1); [exact R1|repeat apply byte_mem_st; assumption|].
      intros b Hb Nb. rewrite !ld_st_other by lia. reflexivity.
    + constructor; cbn [put_byte u_dist u_addr u_mem].
      * rewrite !ld_st_other by lia. rewrite D1 by lia. exact O1.
      * intros b Hb Nb. rewrite !ld_st_other by (unfold own in Nb; lia). now apply A1.
      * intros _. rewrite ld_st_same, ld_st_other, ld_st_same by lia. split; [unfold byte; lia|]. split; [reflexivity|].
        fold ua. rewrite Ep'. lia.
    + rewrite !ld_st_other by lia. apply D1; lia.
    + rewrite !ld_st_other by lia. apply D1; lia.
  - eexists _, _, _, _, _. split; [exact H|]. split; [exact R1|]. split; [|split; apply D1; lia].
    constructor; cbn [put_byte u_dist u_addr u_mem].
    + rewrite D1 by lia. exact O1.
    + exact A1.
    + intros _. rewrite !D1 by lia. fold p. split; [unfold byte; lia|]. split; [exact Pg|]. fold ua. lia.
Qed.

(* at the point where the next flag is looked for *)
Definition Popping (inner outer : Z) (s : list Z) (u : unpacker) : Prop :=
  exists a x y z k m, At a x y sp (org + 42) z k m /\ Reading m s /\ Out true m y u /\ ld m 253 = inner /\ ld m 252 = outer.

Lemma copy_at n : forall a x y z k m rest u,
  At a x y sp (org + 22) z k m -> x = Z.of_nat (S n) -> x <= 255 -> Reading m rest -> Out true m y u ->
  Forall (free org sp) (copy_touches (len rest) (S n) u) -> Popping (ld m 253) (ld m 252) rest (copy (S n) u).
Proof.
  induction n as [|n IH]; intros a x y z k m rest u H Ex Hx R O F; cbn [copy_touches copy] in *.
  all: inversion F as [|? ? F1 F']; subst; inversion F' as [|? ? F2 F3]; subst; clear F F'.
  all: pose proof (r_code _ _ R) as C; pose proof (r_bytes _ _ R) as Bm.
  all: destruct (o_page _ _ _ _ O eq_refl) as (By & Pg & Ua); pose proof (o_dist _ _ _ _ O) as Ud; pose proof (Bm 255) as B1; pose proof (Bm 254) as B2; unfold byte in By, B1, B2.
  all: assert (W : (ld m 254 + 256 * ld m ((254 + 1) mod 256) + y) mod 65536 = (u_addr u - u_dist u) mod 65536) by (change ((254 + 1) mod 256) with 255; rewrite Ua, Ud; lia).
  all: eapply i_lda_indy in H; [|lia|cd 22|cd 23|exact W].
  all: rewrite (o_agree _ _ _ _ O) in H by (first [lia|apply F1]).
  all: set (v := u_mem u ((u_addr u - u_dist u) mod 65536)) in *.
  all: assert (Bv : byte v) by (unfold v; rewrite <- (o_agree _ _ _ _ O) by (first [lia|apply F1]); apply Bm).
  all: eapply (at_pc _ _ _ _ _ (org + 24)) in H; [|lia].
  all: destruct (put_at _ _ _ _ _ _ _ _ H R O Bv F2) as (a' & y' & z' & k' & m' & H' & R' & O' & E2 & E3); clear H.
  all: pose proof (r_code _ _ R') as C'.
  all: eapply i_dex in H'; [|lia|cd 39].
  all: eapply i_bne with (t := org + 22) in H'; [|lia|cd 40|cd 41|sg|lia].
  - change ((Z.of_nat 1 - 1) mod 256 =? 0) with true in H'. cbv iota in H'.
    rewrite <- E2, <- E3. eexists _, _, _, _, _, _. split; [eapply at_pc; [exact H'|lia]|]. split; [exact R'|]. split; [exact O'|]. split; reflexivity.
  - assert (E : (Z.of_nat (S (S n)) - 1) mod 256 = Z.of_nat (S n)) by lia. rewrite E in H'.
    destruct (Z.eqb_spec (Z.of_nat (S n)) 0); [lia|].
    rewrite <- E2, <- E3. eapply IH; [exact H'|reflexivity|lia|exact R'|exact O'|exact F3].
Qed.

(* with a flag in the carry *)
Definition Item (r f : bool) (inner outer : Z) (s : list Z) (u : unpacker) : Prop :=
  exists a x y z m, At a x y sp (org + 67) z f m /\ Reading m s /\ Out r m y u /\ ld m 253 = inner /\ ld m 252 = outer.
Definition Group (r g : bool) (outer : Z) (s : list Z) (u : unpacker) : Prop :=
  exists a x y z m, At a x y sp (org + 57) z g m /\ Reading m s /\ Out r m y u /\ ld m 252 = outer.
Definition Chunk (r : bool) (s : list Z) (u : unpacker) : Prop :=
  exists a x y z k m, At a x y sp (org + 50) z k m /\ Reading m s /\ Out r m y u.
Definition Finished (u : unpacker) : Prop :=
  exists a x y z k m, At a x y sp start z k m /\ byte_mem m /\ forall b, 0 <= b < 65536 -> ~ own org sp b -> ld m b = u_mem u b.

Lemma item_at r f inner outer s u : Item r f inner outer s u -> (r = true \/ (f = true /\ exists t, s = 0 :: t)) -> Forall (free org sp) (item_touches f s u) ->
  match unpack_item f s u with Next s' u' => Popping inner outer s' u' | Stop u' => Finished u' | Bad => True end.
Proof.
  intros (a & x & y & z & m & H & R & O & E1 & E2) Hr0 F.
  destruct s as [|v s]; [exact I|]. cbn [unpack_item item_touches] in *.
  pose proof stack_range as SR.
  destruct (get_byte _ _ _ _ _ _ 67 _ _ H R ltac:(lia) ltac:(pose proof (r_code _ _ R); cd 67) ltac:(pose proof (r_code _ _ R); cd 67)) as (z1 & m1 & H1 & R1 & D1 & Bv). clear H.
  destruct (out_differ _ _ _ _ _ O D1) as (O1 & K1 & K2). rewrite <- K1 in E2. rewrite <- K2 in E1. clear K1 K2 R O D1 m.
  pose proof (r_code _ _ R1) as C1. pose proof (r_bytes _ _ R1) as B1. unfold byte in Bv.
  eapply i_ldx_imm in H1; [|lia|cd 70|cd 71].
  eapply i_bcc with (t := org + 24) in H1; [|lia|cd 72|cd 73|sg|lia].
  destruct f.
  2: { destruct Hr0 as [->|[C ?]]; [|discriminate C]. inversion F as [|? ? F1 _]; subst.
       destruct (put_at _ _ _ _ _ _ _ _ H1 R1 O1 ltac:(unfold byte; lia) F1) as (a2 & y2 & z2 & k2 & m2 & H2 & R2 & O2 & K1 & K2).
       pose proof (r_code _ _ R2) as C2.
       eapply i_dex in H2; [|lia|cd 39]. eapply i_bne with (t := org + 22) in H2; [|lia|cd 40|cd 41|sg|lia].
       change ((1 - 1) mod 256 =? 0) with true in H2. cbv iota in H2.
       eexists _, _, _, _, _, _. split; [eapply at_pc; [exact H2|lia]|]. split; [exact R2|]. split; [exact O2|]. split; congruence. }
  eapply i_lsr in H1; [|lia|cd 74].
  eapply i_bne with (t := org + 15) in H1; [|lia|cd 75|cd 76|sg|lia].
  destruct (Z.leb_spec 2 v) as [V|V].
  - (* two or three bytes *)
    destruct Hr0 as [->|[_ (t & [= ->])]]; [|lia].
    destruct (Z.eqb_spec (v / 2) 0) as [V0|V0]; [lia|].
    eapply i_sta_zp in H1; [|lia|cd 15|cd 16].
    set (m2 := st m1 254 (v / 2)) in *.
    assert (B2 : byte_mem m2) by (apply byte_mem_st; [exact B1|unfold byte; lia]).
    pose proof (len_nonneg s) as N. pose proof (r_len _ _ R1) as RL.
    assert (R2 : Reading m2 s).
    { apply (reading_differ m1); [exact R1|exact B2|]. intros b Hb Nb. apply ld_st_other; lia. }
    pose proof (r_code _ _ R2) as C2.
    assert (O2 : Out true m2 y (mkUnpacker (u_mem u) (u_addr u) (128 - v / 2))).
    { destruct O1 as [Q1 Q2 Q3]. constructor; cbn [u_dist u_mem u_addr].
      - unfold m2. rewrite ld_st_same. reflexivity.
      - intros b Hb Nb. unfold m2. rewrite ld_st_other by (unfold own in Nb; lia). now apply Q2.
      - intros _. unfold m2. rewrite !ld_st_other by lia. now apply Q3. }
    eapply i_txa in H1; [|lia|cd 17]. eapply i_rol in H1; [|lia|cd 18]. eapply i_tax in H1; [|lia|cd 19].
    eapply i_beq with (t := org + 12) in H1; [|lia|cd 20|cd 21|sg|lia].
    assert (EX : (2 * 1 + b2z (v mod 2 =? 1)) mod 256 = 2 + v mod 2) by (destruct (Z.eqb_spec (v mod 2) 1); cbn [b2z]; lia).
    rewrite EX in H1. destruct (Z.eqb_spec (2 + v mod 2) 0); [lia|].
    assert (EN : exists n, Z.to_nat (2 + v mod 2) = S n /\ 2 + v mod 2 = Z.of_nat (S n)) by (exists (Z.to_nat (1 + v mod 2)); lia).
    destruct EN as (n0 & EN1 & EN2). rewrite EN1 in *.
    assert (P : Popping (ld m2 253) (ld m2 252) s (copy (S n0) (mkUnpacker (u_mem u) (u_addr u) (128 - v / 2)))).
    { eapply copy_at; [eapply at_pc; [exact H1|lia]|exact EN2|lia|exact R2|exact O2|exact F]. }
    unfold m2 in P. rewrite !ld_st_other in P by lia. rewrite E1, E2 in P. exact P.
  - destruct (Z.eqb_spec (v / 2) 0) as [V0|V0]; [|lia].
    destruct (Z.eqb_spec v 1) as [V1|V1].
    + (* many bytes, or the end *)
      destruct Hr0 as [->|[_ (t & [= ->])]]; [|lia].
      destruct s as [|n s]; [exact I|].
      eapply (at_pc _ _ _ _ _ (org + 77)) in H1; [|lia].
      destruct (get_byte _ _ _ _ _ _ 77 _ _ H1 R1 ltac:(lia) ltac:(cd 77) ltac:(cd 77)) as (z2 & m2 & H2 & R2 & D2 & Bn). clear H1.
      destruct (out_differ _ _ _ _ _ O1 D2) as (O2 & K1 & K2). rewrite <- K1 in E2. rewrite <- K2 in E1. clear K1 K2 D2 C1 B1 R1 O1 m1.
      pose proof (r_code _ _ R2) as C2. unfold byte in Bn.
      eapply i_bcs with (t := org + 19) in H2; [|lia|cd 80|cd 81|sg|lia].
      replace (v mod 2 =? 1) with true in H2 by (subst v; reflexivity). cbv iota in H2.
      eapply i_tax in H2; [|lia|cd 19]. eapply i_beq with (t := org + 12) in H2; [|lia|cd 20|cd 21|sg|lia].
      destruct (Z.eqb_spec n 0) as [N0|N0].
      * eapply i_jmp in H2; [|lia|cd 12|cd 12].
        eexists _, _, _, _, _, _. split; [exact H2|]. split; [apply (r_bytes _ _ R2)|]. apply (o_agree _ _ _ _ O2).
      * assert (EN : exists n', Z.to_nat n = S n' /\ n = Z.of_nat (S n')) by (exists (Z.to_nat (n - 1)); lia).
        destruct EN as (n' & EN1 & EN2). rewrite EN1 in *. rewrite <- E1, <- E2.
        eapply copy_at; [eapply at_pc; [exact H2|lia]|exact EN2|lia|exact R2|exact O2|exact F].
    + (* a new address *)
      destruct s as [|lo s]; [exact I|]. destruct s as [|hi s]; [exact I|].
      eapply (at_pc _ _ _ _ _ (org + 77)) in H1; [|lia].
      destruct (get_byte _ _ _ _ _ _ 77 _ _ H1 R1 ltac:(lia) ltac:(cd 77) ltac:(cd 77)) as (z2 & m2 & H2 & R2 & D2 & Bl). clear H1.
      destruct (out_differ _ _ _ _ _ O1 D2) as (O2 & K1 & K2). rewrite <- K1 in E2. rewrite <- K2 in E1. clear K1 K2 D2 C1 B1 R1 O1 m1.
      pose proof (r_code _ _ R2) as C2. unfold byte in Bl.
      eapply i_bcs with (t := org + 19) in H2; [|lia|cd 80|cd 81|sg|lia].
      assert (EC : (v mod 2 =? 1) = false) by (apply Z.eqb_neq; lia). rewrite EC in H2.
      eapply i_tay in H2; [|lia|cd 82]. eapply (at_pc _ _ _ _ _ (org + 83)) in H2; [|lia].
      destruct (get_byte _ _ _ _ _ _ 83 _ _ H2 R2 ltac:(lia) ltac:(cd 83) ltac:(cd 83)) as (z3 & m3 & H3 & R3 & D3 & Bh). clear H2.
      destruct (out_differ _ _ _ _ _ O2 D3) as (O3 & K1 & K2). rewrite <- K1 in E2. rewrite <- K2 in E1. clear K1 K2 D3 C2 R2 O2 m2.
      pose proof (r_code _ _ R3) as C3. pose proof (r_bytes _ _ R3) as B3.
      eapply i_bcc with (t := org + 34) in H3; [|lia|cd 86|cd 87|sg|lia].
      cbv iota in H3.
      eapply i_sta_zp in H3; [|lia|cd 34|cd 35].
      pose proof (len_nonneg s) as N. pose proof (r_len _ _ R3) as RL.
      assert (C4 : code (st m3 255 hi)) by (intros q ? ? ? ?; rewrite ld_st_other by lia; now apply C3).
      eapply i_sta_abs in H3; [|lia|cd 36|cd 36].
      set (m5 := st (st m3 255 hi) (org + 26) hi) in *.
      assert (D5 : forall b, 0 <= b -> b <> 255 -> b <> org + 26 -> ld m5 b = ld m3 b) by (intros; unfold m5; rewrite !ld_st_other by lia; reflexivity).
      assert (L1 : ld m5 255 = hi) by (unfold m5; rewrite ld_st_other by lia; apply ld_st_same).
      assert (L2 : ld m5 (org + 26) = hi) by apply ld_st_same.
      assert (R5 : Reading m5 s).
      { apply (reading_differ m3); [exact R3|repeat apply byte_mem_st; assumption|]. intros b Hb Nb. apply D5; lia. }
      clearbody m5. pose proof (r_code _ _ R5) as C5.
      eapply i_dex in H3; [|lia|cd 39]. eapply i_bne with (t := org + 22) in H3; [|lia|cd 40|cd 41|sg|lia].
      change ((1 - 1) mod 256 =? 0) with true in H3. cbv iota in H3.
      eexists _, _, _, _, _, _. split; [eapply at_pc; [exact H3|lia]|]. split; [exact R5|]. split; [|rewrite !D5 by lia; split; congruence].
      destruct O3 as [Q1 Q2 Q3]. constructor; cbn [u_dist u_mem u_addr].
      * rewrite D5 by lia. exact Q1.
      * intros b Hb Nb. rewrite D5 by (unfold own in Nb; lia). now apply Q2.
      * intros _. rewrite L1, L2. split; [exact Bl|]. split; [reflexivity|]. f_equal. lia.
Qed.

Lemma store_flags r m y u s q v : Reading m s -> Out r m y u -> q = 252 \/ q = 253 -> byte v -> Reading (st m q v) s /\ Out r (st m q v) y u.
Proof.
  intros R O Q B. pose proof (len_nonneg s) as N. pose proof (r_len _ _ R) as RL. split.
  - apply (reading_differ m); [exact R|apply byte_mem_st; [apply (r_bytes _ _ R)|exact B]|]. intros b Hb Nb. apply ld_st_other; lia.
  - destruct O as [Q1 Q2 Q3]. constructor.
    + rewrite ld_st_other by lia. exact Q1.
    + intros b Hb Nb. rewrite ld_st_other by (unfold own in Nb; lia). now apply Q2.
    + intros T. rewrite !ld_st_other by lia. now apply Q3.
Qed.

Lemma pop_inner f fl outer s u : (length fl <= 6)%nat -> Popping (enc (f :: fl)) outer s u -> Item true f (enc fl) outer s u.
Proof.
  intros L (a & x & y & z & k & m & H & R & O & E1 & E2). pose proof (r_code _ _ R) as C.
  destruct (enc_pop f fl L) as [P1 P2]. pose proof (enc_pos fl ltac:(lia)) as P3.
  eapply i_asl_zp in H; [|lia|cd 42|cd 43]. rewrite E1, P1, P2 in H.
  destruct (store_flags _ _ _ _ _ 253 (enc fl) R O ltac:(lia) ltac:(unfold byte; lia)) as [R' O'].
  pose proof (r_code _ _ R') as C'.
  eapply i_bne with (t := org + 67) in H; [|lia|cd 44|cd 45|sg|lia].
  destruct (Z.eqb_spec (enc fl) 0); [lia|].
  eexists _, _, _, _, _. split; [exact H|]. split; [exact R'|]. split; [exact O'|]. rewrite ld_st_same, ld_st_other by lia. now split.
Qed.
Lemma pop_zero outer s u : Popping 128 outer s u -> exists a x y z k m, At a x y sp (org + 46) z k m /\ Reading m s /\ Out true m y u /\ ld m 252 = outer.
Proof.
  intros (a & x & y & z & k & m & H & R & O & E1 & E2). pose proof (r_code _ _ R) as C.
  eapply i_asl_zp in H; [|lia|cd 42|cd 43]. rewrite E1 in H. change ((2 * 128) mod 256) with 0 in H. cbn [Z.eqb] in H.
  destruct (store_flags _ _ _ _ _ 253 0 R O ltac:(lia) ltac:(unfold byte; lia)) as [R' O'].
  pose proof (r_code _ _ R') as C'.
  eapply i_bne with (t := org + 67) in H; [|lia|cd 44|cd 45|sg|lia]. cbv iota in H.
  eexists _, _, _, _, _, _. split; [eapply at_pc; [exact H|lia]|]. split; [exact R'|]. split; [exact O'|]. rewrite ld_st_other by lia. exact E2.
Qed.
Lemma pop_outer g fo s u : (length fo <= 6)%nat -> Popping 128 (enc (g :: fo)) s u -> Group true g (enc fo) s u.
Proof.
  intros L P. destruct (pop_zero _ _ _ P) as (a & x & y & z & k & m & H & R & O & E). clear P. pose proof (r_code _ _ R) as C.
  destruct (enc_pop g fo L) as [P1 P2]. pose proof (enc_pos fo ltac:(lia)) as P3.
  eapply i_asl_zp in H; [|lia|cd 46|cd 47]. rewrite E, P1, P2 in H.
  destruct (store_flags _ _ _ _ _ 252 (enc fo) R O ltac:(lia) ltac:(unfold byte; lia)) as [R' O'].
  pose proof (r_code _ _ R') as C'.
  eapply i_bne with (t := org + 57) in H; [|lia|cd 48|cd 49|sg|lia].
  destruct (Z.eqb_spec (enc fo) 0); [lia|].
  eexists _, _, _, _, _. split; [exact H|]. split; [exact R'|]. split; [exact O'|]. apply ld_st_same.
Qed.
Lemma pop_chunk s u : Popping 128 128 s u -> Chunk true s u.
Proof.
  intros P. destruct (pop_zero _ _ _ P) as (a & x & y & z & k & m & H & R & O & E). clear P. pose proof (r_code _ _ R) as C.
  eapply i_asl_zp in H; [|lia|cd 46|cd 47]. rewrite E in H. change ((2 * 128) mod 256) with 0 in H. cbn [Z.eqb] in H.
  destruct (store_flags _ _ _ _ _ 252 0 R O ltac:(lia) ltac:(unfold byte; lia)) as [R' O'].
  pose proof (r_code _ _ R') as C'.
  eapply i_bne with (t := org + 57) in H; [|lia|cd 48|cd 49|sg|lia]. cbv iota in H.
  eexists _, _, _, _, _, _. split; [eapply at_pc; [exact H|lia]|]. split; [exact R'|exact O'].
Qed.
Lemma rol_flags v : byte v -> (2 * v + b2z true) mod 256 = enc (tl (bits v)) /\ (128 <=? v) = Z.testbit v 7 /\ byte (enc (tl (bits v))).
Proof.
  intros B. destruct (enc_bits v B) as [E1 E2]. split; [exact E2|]. split; [exact E1|].
  pose proof (enc_pos (tl (bits v)) ltac:(cbn; lia)). unfold byte. lia.
Qed.
Lemma chunk_start r v s u : Chunk r (v :: s) u -> Group r (Z.testbit v 7) (enc (tl (bits v))) s u.
Proof.
  intros (a & x & y & z & k & m & H & R & O). pose proof (r_code _ _ R) as C.
  eapply i_sec in H; [|lia|cd 50]. eapply (at_pc _ _ _ _ _ (org + 51)) in H; [|lia].
  destruct (get_byte _ _ _ _ _ _ 51 _ _ H R ltac:(lia) ltac:(cd 51) ltac:(cd 51)) as (z1 & m1 & H1 & R1 & D1 & Bv). clear H.
  destruct (out_differ _ _ _ _ _ O D1) as (O1 & _ & _). pose proof (r_code _ _ R1) as C1.
  destruct (rol_flags v Bv) as (F1 & F2 & F3).
  eapply i_rol in H1; [|lia|cd 54]. rewrite F1, F2 in H1.
  eapply i_sta_zp in H1; [|lia|cd 55|cd 56].
  destruct (store_flags _ _ _ _ _ 252 _ R1 O1 ltac:(lia) F3) as [R' O'].
  eexists _, _, _, _, _. split; [eapply at_pc; [exact H1|lia]|]. split; [exact R'|]. split; [exact O'|]. apply ld_st_same.
Qed.
Lemma group_flags r v outer s u : Group r true outer (v :: s) u -> Item r (Z.testbit v 7) (enc (tl (bits v))) outer s u.
Proof.
  intros (a & x & y & z & m & H & R & O & E). pose proof (r_code _ _ R) as C.
  eapply i_lda_imm in H; [|lia|cd 57|cd 58]. eapply i_bcc with (t := org + 65) in H; [|lia|cd 59|cd 60|sg|lia].
  eapply (at_pc _ _ _ _ _ (org + 61)) in H; [|lia].
  destruct (get_byte _ _ _ _ _ _ 61 _ _ H R ltac:(lia) ltac:(cd 61) ltac:(cd 61)) as (z1 & m1 & H1 & R1 & D1 & Bv). clear H.
  destruct (out_differ _ _ _ _ _ O D1) as (O1 & K & _). pose proof (r_code _ _ R1) as C1.
  destruct (rol_flags v Bv) as (F1 & F2 & F3).
  eapply i_rol in H1; [|lia|cd 64]. rewrite F1, F2 in H1.
  eapply i_sta_zp in H1; [|lia|cd 65|cd 66].
  destruct (store_flags _ _ _ _ _ 253 _ R1 O1 ltac:(lia) F3) as [R' O'].
  eexists _, _, _, _, _. split; [eapply at_pc; [exact H1|lia]|]. split; [exact R'|]. split; [exact O'|].
  rewrite ld_st_same, ld_st_other by lia. split; [reflexivity|congruence].
Qed.
Lemma group_plain r outer s u : Group r false outer s u -> Item r false (enc (repeat false 7)) outer s u.
Proof.
  intros (a & x & y & z & m & H & R & O & E). pose proof (r_code _ _ R) as C.
  eapply i_lda_imm in H; [|lia|cd 57|cd 58]. eapply i_bcc with (t := org + 65) in H; [|lia|cd 59|cd 60|sg|lia].
  cbv iota in H.
  eapply i_sta_zp in H; [|lia|cd 65|cd 66].
  destruct (store_flags _ _ _ _ _ 253 1 R O ltac:(lia) ltac:(unfold byte; lia)) as [R' O'].
  eexists _, _, _, _, _. split; [eapply at_pc; [exact H|lia]|]. split; [exact R'|]. split; [exact O'|].
  rewrite enc_none, ld_st_same, ld_st_other by lia. now split.
Qed.

Lemma items_at fl : forall r f outer s u, (length fl <= 7)%nat -> Item r f (enc fl) outer s u -> (r = true \/ (f = true /\ exists t, s = 0 :: t)) ->
  Forall (free org sp) (items_touches (f :: fl) s u) ->
  match unpack_items (f :: fl) s u with Next s' u' => Popping 128 outer s' u' | Stop u' => Finished u' | Bad => True end.
Proof.
  induction fl as [|g fl IH]; intros r f outer s u L H Hr0 F.
  - cbn [items_touches unpack_items] in *. apply Forall_app in F as [F _]. pose proof (item_at _ _ _ _ _ _ H Hr0 F) as K.
    destruct (unpack_item f s u); exact K.
  - cbn [length] in L. change (items_touches (f :: g :: fl) s u) with (item_touches f s u ++ after (unpack_item f s u) (items_touches (g :: fl))) in F.
    change (unpack_items (f :: g :: fl) s u) with (match unpack_item f s u with Next s st => unpack_items (g :: fl) s st | r => r end).
    apply Forall_app in F as [F1 F2]. pose proof (item_at _ _ _ _ _ _ H Hr0 F1) as K.
    destruct (unpack_item f s u) as [s' u'|u'|]; [|exact K|exact I]. cbn [after] in F2.
    apply (IH true); [lia|apply pop_inner; [lia|exact K]|now left|exact F2].
Qed.
(* the address is known or set at once *)
Definition begins (r g : bool) (s : list Z) : Prop := r = true \/ (g = true /\ exists w t, s = w :: 0 :: t /\ Z.testbit w 7 = true).
Lemma group_at r g outer s u : Group r g outer s u -> begins r g s -> Forall (free org sp) (group_touches g s u) ->
  match (if g then match s with v :: s => unpack_items (bits v) s u | [] => Bad end else unpack_items (repeat false 8) s u)
  with Next s' u' => Popping 128 outer s' u' | Stop u' => Finished u' | Bad => True end.
Proof.
  intros H B F. destruct g.
  - destruct s as [|v s]; [exact I|]. cbn [group_touches] in F. rewrite (bits_cons v) in *.
    apply (items_at _ r); [cbn; lia|now apply group_flags| |exact F].
    destruct B as [B|(_ & w & t & [= -> ->] & T)]; [now left|]. right. split; [exact T|]. now exists t.
  - change (repeat false 8) with (false :: repeat false 7) in *. apply (items_at _ r); [cbn; lia|now apply group_plain| |exact F].
    destruct B as [B|[C _]]; [now left|discriminate C].
Qed.
Lemma groups_at fo : forall r g s u, (length fo <= 7)%nat -> Group r g (enc fo) s u -> begins r g s -> Forall (free org sp) (groups_touches (g :: fo) s u) ->
  match unpack_groups (g :: fo) s u with Next s' u' => Popping 128 128 s' u' | Stop u' => Finished u' | Bad => True end.
Proof.
  induction fo as [|h fo IH]; intros r g s u L H B F.
  - cbn [groups_touches unpack_groups] in *. apply Forall_app in F as [F _]. pose proof (group_at _ _ _ _ _ H B F) as K.
    destruct (if g then match s with [] => Bad | v :: s => unpack_items (bits v) s u end else unpack_items (repeat false 8) s u); exact K.
  - cbn [length] in L.
    change (groups_touches (g :: h :: fo) s u) with (group_touches g s u ++ after (if g then match s with [] => Bad | v :: s => unpack_items (bits v) s u end else unpack_items (repeat false 8) s u) (groups_touches (h :: fo))) in F.
    change (unpack_groups (g :: h :: fo) s u) with (match (if g then match s with [] => Bad | v :: s => unpack_items (bits v) s u end else unpack_items (repeat false 8) s u) with Next s st => unpack_groups (h :: fo) s st | r => r end).
    apply Forall_app in F as [F1 F2]. pose proof (group_at _ _ _ _ _ H B F1) as K.
    destruct (if g then match s with [] => Bad | v :: s => unpack_items (bits v) s u end else unpack_items (repeat false 8) s u) as [s' u'|u'|]; [|exact K|exact I]. cbn [after] in F2.
    apply (IH true); [lia|apply pop_outer; [lia|exact K]|now left|exact F2].
Qed.
Lemma unpack_at n : forall r s u u', Chunk r s u -> r = true \/ sets_address s -> Forall (free org sp) (touches n s u) -> unpack n s u = Some u' -> Finished u'.
Proof.
  induction n as [|n IH]; intros r s u u' H B F E; [discriminate E|].
  destruct s as [|v s]; [discriminate E|]. cbn [unpack touches] in *. apply Forall_app in F as [F1 F2].
  apply chunk_start in H. rewrite (bits_cons v) in *.
  assert (K : match unpack_groups (Z.testbit v 7 :: tl (bits v)) s u with Next s' u' => Popping 128 128 s' u' | Stop u' => Finished u' | Bad => True end).
  { apply (groups_at _ r); [cbn; lia|exact H| |exact F1].
    destruct B as [B|(v' & w & t & [= -> ->] & T1 & T2)]; [now left|]. right. split; [exact T1|]. exists w, t. now split. }
  destruct (unpack_groups (Z.testbit v 7 :: tl (bits v)) s u) as [s' u1|u1|]; [|injection E as <-; exact K|discriminate E].
  cbn [after] in F2. apply (IH true s' u1); [now apply pop_chunk|now left|exact F2|exact E].
Qed.
End Depack.

Lemma len_depacker org source start : len (depacker org source start) = 88. Proof. reflexivity. Qed.

(* what is to be found in the memory before the decompressor starts *)
Theorem depacker_runs c org source start stream n u u' :
  512 <= source -> source + len stream = org -> org + 88 <= 65500 -> 0 <= start < 65536 -> byte_mem (M c) -> byte (SP c) ->
  holds (M c) source (stream ++ depacker org source start) -> PC c = org + 50 -> fD c = false -> sets_address stream ->
  (forall a, u_mem u a = ld (M c) a) -> u_dist u = 128 - ld (M c) 254 ->
  unpack n stream u = Some u' -> Forall (free org (SP c)) (touches n stream u) ->
  exists d, gets c d /\ PC d = start /\ SP d = SP c /\ forall a, 0 <= a < 65536 -> ~ own org (SP c) a -> ld (M d) a = u_mem u' a.
Proof.
  intros H1 H2 H3 H4 B BS HH HP HD SA UM UD E F. pose proof (len_nonneg stream) as N.
  assert (HC : forall k, 0 <= k < 88 -> ld (M c) (org + k) = at_ (depacker org source start) k).
  { intros k Hk. replace (org + k) with (source + (len stream + k)) by lia. rewrite HH by (rewrite len_app, len_depacker; lia).
    rewrite at_app2 by lia. f_equal. lia. }
  assert (K : Finished c org start (SP c) u').
  { eapply (unpack_at c org source start (SP c)) with (r := false) (s := stream); try eassumption; try lia; [|now right].
    exists (A c), (X c), (Y c), (fZ c), (fC c), (M c). split; [|split].
    - exists c. split; [apply gets_here|]. repeat split; assumption.
    - constructor; [intros k Hk _ _ _; now apply HC|exact B| |lia|].
      + rewrite !HC by lia. change (at_ (depacker org source start) 1) with (source mod 256). change (at_ (depacker org source start) 2) with (source / 256). lia.
      + replace (org - len stream) with source by lia. intros i Hi. rewrite HH by (rewrite len_app, len_depacker; lia). now apply at_app1.
    - constructor; [exact UD|intros; symmetry; apply UM|discriminate]. }
  destruct K as (a & x & y & z & k & m & (d & G & _ & _ & _ & S & P & _ & _ & _ & Em) & Bm & Ag).
  exists d. split; [exact G|]. split; [exact P|]. split; [exact S|]. rewrite Em. exact Ag.
Qed.
