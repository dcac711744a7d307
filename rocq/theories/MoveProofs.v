(* What ASAPNativeModuleWriter writes. *)
From Verif Require Import Base BaseFacts InfoModel WriterModel WriterProofs SapSpec WindowSpec SaveProofs MoveSpec.

(* f emits l when the output is at index o *)
Definition emits_at (o : Z) (f : wr) (l : list Z) : Prop :=
  forall w, wf w -> w_off w = o ->
    (o + len l <= w_end w -> f w = Ok (true, put w l)) /\
    (w_end w < o + len l -> exists w', f w = Ok (false, w') /\ stays w w').

Lemma at_emits o f l : emits f l -> emits_at o f l.
Proof. intros H w Hw <-. now apply H. Qed.

Lemma emits_at_nil o : emits_at o wok [].
Proof. apply at_emits, emits_wok. Qed.

Lemma emits_at_seq o f g l k : emits_at o f l -> emits_at (o + len l) g k -> emits_at o (wseq f g) (l ++ k).
Proof.
  intros Hf Hg w Hw Ho. pose proof (len_nonneg l). pose proof (len_nonneg k). destruct (Hf w Hw Ho) as [F1 F2]. rewrite len_app. unfold wseq.
  destruct (Z.le_gt_cases (o + len l) (w_end w)) as [C|C].
  - rewrite F1 by lia. cbn [bind]. destruct (Hg (put w l)) as [G1 G2]; [apply wf_put; [exact Hw|lia]|cbn [put w_off]; lia|]. cbn [put w_end] in G1, G2. split; intros Q.
    + rewrite G1 by lia. rewrite <- put_put by (try exact Hw; lia). reflexivity.
    + destruct G2 as (w' & E & S); [lia|]. fold (put w l) in E, S. exists w'. split; [exact E|]. eapply stays_trans; [|exact S]. apply stays_put; [exact Hw|lia].
  - destruct F2 as (w' & E & S); [lia|]. rewrite E. cbn [bind]. split; [lia|]. intros _. exists w'. now split.
Qed.

Lemma emits_at_eq o f l k : emits_at o f l -> l = k -> emits_at o f k.
Proof. now intros H <-. Qed.

(* the bytes of a function *)
Fixpoint seg (g : Z -> Z) (a : Z) (k : nat) : list Z := match k with O => [] | S k => g a :: seg g (a + 1) k end.

Lemma len_seg g k : forall a, len (seg g a k) = Z.of_nat k.
Proof. induction k as [|k IH]; intros a; cbn [seg]; [reflexivity|]. rewrite len_cons, IH. lia. Qed.

Lemma seg_app g k1 k2 : forall a, seg g a k1 ++ seg g (a + Z.of_nat k1) k2 = seg g a (k1 + k2).
Proof.
  induction k1 as [|k1 IH]; intros a; cbn [seg app Nat.add]; [now rewrite Z.add_0_r|]. f_equal. rewrite <- IH. f_equal. f_equal. lia.
Qed.

Lemma at_seg g k : forall a i, 0 <= i < Z.of_nat k -> at_ (seg g a k) i = g (a + i).
Proof.
  induction k as [|k IH]; intros a i Hi; [lia|]. cbn [seg]. destruct (Z.eq_dec i 0) as [->|N]; [rewrite Z.add_0_r; reflexivity|].
  replace (at_ (g a :: seg g (a + 1) k) i) with (at_ (seg g (a + 1) k) (i - 1)).
  - rewrite IH by lia. f_equal. lia.
  - unfold at_. replace (Z.to_nat i) with (S (Z.to_nat (i - 1))) by lia. reflexivity.
Qed.

Definition emits_to (g : Z -> Z) (o : Z) (f : wr) (e : Z) : Prop := o <= e /\ emits_at o f (seg g o (Z.to_nat (e - o))).

Lemma to_nil g o : emits_to g o wok o.
Proof. split; [lia|]. rewrite Z.sub_diag. apply emits_at_nil. Qed.

Lemma to_seq g o f a h e : emits_to g o f a -> emits_to g a h e -> emits_to g o (wseq f h) e.
Proof.
  intros [H1 E1] [H2 E2]. split; [lia|]. replace (Z.to_nat (e - o)) with (Z.to_nat (a - o) + Z.to_nat (e - a))%nat by lia. rewrite <- seg_app.
  apply emits_at_seq; [exact E1|]. rewrite len_seg. replace (o + Z.of_nat (Z.to_nat (a - o))) with a by lia. exact E2.
Qed.

Section Writing.
Variables (n : nmw) (L : Z) (g : Z -> Z).
Let B (i : Z) : Z := at_ (n_module n) (n_offset n + i).
Hypothesis Hoff : 0 <= n_offset n.
Hypothesis Hlen : n_offset n + L <= len (n_module n).
Hypothesis Hb : bytes (n_module n).

Lemma to_copy o e : 0 <= o <= e -> e <= L -> (forall i, o <= i < e -> g i = B i) -> emits_to g o (n_copy n e) e.
Proof.
  intros Ho He Hg. split; [lia|]. intros w Hw Hoo. unfold n_copy. rewrite Hoo.
  assert (S : slice (n_module n) (n_offset n + o) (n_offset n + e) = seg g o (Z.to_nat (e - o))).
  { apply list_eq_at; [rewrite len_slice, len_seg by lia; lia|]. intros i Hi. rewrite len_slice in Hi by lia. rewrite at_seg by lia. rewrite Hg by lia. unfold B. rewrite at_slice by lia. f_equal. lia. }
  rewrite <- S, <- Hoo. apply emits_bytes; [lia|lia|lia|exact Hw].
Qed.

Lemma reloc_moved p : relocate (n_diff n) p = moved (n_diff n) p.
Proof. unfold relocate, moved. destruct (p =? 0), (p =? 65535); reflexivity. Qed.

Definition lohi (lo hi : Z) : Z := moved (n_diff n) (B lo + 256 * B hi).

Lemma get_src i : 0 <= i < L -> get (n_module n) (n_offset n + i) = Ok (B i).
Proof. intros H. rewrite get_ok by lia. reflexivity. Qed.

Lemma to_words k : forall o, 0 <= o -> o + 2 * Z.of_nat k <= L ->
  (forall j, 0 <= j < Z.of_nat k -> g (o + 2 * j) = lohi (o + 2 * j) (o + 2 * j + 1) mod 256 /\ g (o + 2 * j + 1) = lohi (o + 2 * j) (o + 2 * j + 1) / 256 mod 256) ->
  emits_to g o (n_relocate_words n k) (o + 2 * Z.of_nat k).
Proof.
  induction k as [|k IH]; intros o Ho HL Hg.
  - replace (o + 2 * Z.of_nat 0) with o by lia. split; [lia|]. rewrite Z.sub_diag. apply emits_at_nil.
  - assert (T : emits_to g o (fun w => wbind (n_get_word n (w_off w)) (fun address => wseq (write_word (relocate (n_diff n) address)) (n_relocate_words n k)) w) (o + 2 * Z.of_nat (S k))).
    { assert (E1 : n_get_word n o = Ok (B o + 256 * B (o + 1))).
      { unfold n_get_word, get_word. replace (n_offset n + o + 1) with (n_offset n + (o + 1)) by lia. rewrite !get_src by lia. cbn [bind]. f_equal. rewrite Z.shiftl_mul_pow2 by lia. lia. }
      assert (E2 : emits_to g o (wseq (write_word (relocate (n_diff n) (B o + 256 * B (o + 1)))) (n_relocate_words n k)) (o + 2 * Z.of_nat (S k))).
      { apply to_seq with (a := o + 2).
        - split; [lia|]. replace (Z.to_nat (o + 2 - o)) with 2%nat by lia. cbn [seg]. eapply emits_at_eq; [apply at_emits, emits_word|].
          destruct (Hg 0 ltac:(lia)) as [G1 G2]. rewrite Z.mul_0_r, Z.add_0_r in G1, G2. rewrite G1, G2. rewrite reloc_moved. unfold lohi, u8. rewrite Z.shiftr_div_pow2 by lia. reflexivity.
        - replace (o + 2 * Z.of_nat (S k)) with (o + 2 + 2 * Z.of_nat k) by lia. apply IH; [lia|lia|]. intros j Hj. specialize (Hg (j + 1) ltac:(lia)). replace (o + 2 + 2 * j) with (o + 2 * (j + 1)) by lia. exact Hg. }
      destruct E2 as [H2 E2]. split; [exact H2|]. intros w Hw Hw0. unfold wbind. rewrite Hw0, E1. cbn [bind]. now apply E2. }
    exact T.
Qed.

Lemma to_bytes shift k : (shift = 0 \/ shift = 8) -> forall lo hi o, 0 <= lo -> 0 <= hi -> lo + Z.of_nat k <= L -> hi + Z.of_nat k <= L ->
  (forall j, 0 <= j < Z.of_nat k -> g (o + j) = lohi (lo + j) (hi + j) / 2 ^ shift mod 256) ->
  emits_to g o (n_relocate_bytes_loop n (lo + n_offset n) (hi + n_offset n) k shift) (o + Z.of_nat k).
Proof.
  intros Hs. induction k as [|k IH]; intros lo hi o H1 H2 H3 H4 Hg; cbn [n_relocate_bytes_loop].
  - replace (o + Z.of_nat 0) with o by lia. apply to_nil.
  - assert (E1 : emits_to g o (wseq (write_byte (Z.land (Z.shiftr (relocate (n_diff n) (B lo + Z.shiftl (B hi) 8)) shift) 255)) (n_relocate_bytes_loop n (lo + n_offset n + 1) (hi + n_offset n + 1) k shift)) (o + Z.of_nat (S k))).
    { apply to_seq with (a := o + 1).
      - split; [lia|]. replace (Z.to_nat (o + 1 - o)) with 1%nat by lia. cbn [seg]. eapply emits_at_eq; [apply at_emits, emits_byte|].
        specialize (Hg 0 ltac:(lia)). rewrite !Z.add_0_r in Hg. rewrite Hg, u8_land, reloc_moved. unfold lohi, u8. rewrite Z.shiftl_mul_pow2 by lia. change (2 ^ 8) with 256.
        rewrite Z.shiftr_div_pow2 by lia. replace (B lo + B hi * 256) with (B lo + 256 * B hi) by lia. reflexivity.
      - replace (o + Z.of_nat (S k)) with (o + 1 + Z.of_nat k) by lia. replace (lo + n_offset n + 1) with (lo + 1 + n_offset n) by lia. replace (hi + n_offset n + 1) with (hi + 1 + n_offset n) by lia.
        apply IH; try lia. intros j Hj. specialize (Hg (j + 1) ltac:(lia)). replace (o + 1 + j) with (o + (j + 1)) by lia. rewrite Hg. replace (lo + (j + 1)) with (lo + 1 + j) by lia. replace (hi + (j + 1)) with (hi + 1 + j) by lia. reflexivity. }
    assert (G1 : get (n_module n) (lo + n_offset n) = Ok (B lo)) by (rewrite Z.add_comm; apply get_src; lia).
    assert (G2 : get (n_module n) (hi + n_offset n) = Ok (B hi)) by (rewrite Z.add_comm; apply get_src; lia).
    destruct E1 as [H5 E1]. split; [exact H5|]. intros w Hw Hw0. unfold wbind. rewrite G1, G2. cbn [bind]. now apply E1.
Qed.

Lemma to_relocate_bytes shift lo hi count o : (shift = 0 \/ shift = 8) -> 0 <= lo -> 0 <= hi -> 0 <= count -> lo + count <= L -> hi + count <= L ->
  (forall j, 0 <= j < count -> g (o + j) = lohi (lo + j) (hi + j) / 2 ^ shift mod 256) ->
  emits_to g o (n_relocate_bytes n lo hi count shift) (o + count).
Proof.
  intros Hs H1 H2 H3 H4 H5 Hg. unfold n_relocate_bytes. replace (o + count) with (o + Z.of_nat (Z.to_nat count)) by lia. apply to_bytes; try assumption; try lia.
  intros j Hj. apply Hg. lia.
Qed.

Lemma to_low_high count o : 0 <= o -> 0 <= count -> o + 2 * count <= L ->
  (forall j, 0 <= j < count -> g (o + j) = lohi (o + j) (o + count + j) mod 256 /\ g (o + count + j) = lohi (o + j) (o + count + j) / 256 mod 256) ->
  emits_to g o (n_relocate_low_high n count) (o + 2 * count).
Proof.
  intros H1 H2 H3 Hg.
  assert (E : emits_to g o (wseq (n_relocate_bytes n o (o + count) count 0) (n_relocate_bytes n o (o + count) count 8)) (o + 2 * count)).
  { apply to_seq with (a := o + count).
    - apply to_relocate_bytes; try lia. intros j Hj. destruct (Hg j Hj) as [G1 _]. rewrite G1. change (2 ^ 0) with 1. now rewrite Z.div_1_r.
    - replace (o + 2 * count) with (o + count + count) by lia. apply to_relocate_bytes; try lia. intros j Hj. destruct (Hg j Hj) as [_ G2]. rewrite G2. reflexivity. }
  destruct E as [H4 E]. split; [exact H4|]. intros w Hw Hw0. unfold n_relocate_low_high. rewrite Hw0. now apply E.
Qed.
End Writing.
