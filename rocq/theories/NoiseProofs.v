(* The noise tables of the emulator against NoiseSpec.v *)
From Coq Require Import FinFun.
From Verif Require Import Base BaseFacts Loop PokeyModel PokeyProofs NoiseSpec.

(* ---- the registers ---- *)
Fixpoint advance (w t : Z) (n : nat) (r : Z) : Z := match n with O => r | S k => advance w t k (clock w t r) end.

Lemma advance_S w t n r : advance w t (S n) r = clock w t (advance w t n r).
Proof. revert r. induction n as [|n IH]; intros r; [reflexivity|]. change (advance w t (S n) (clock w t r) = clock w t (advance w t n (clock w t r))). apply IH. Qed.
Lemma clocked_advance w t n : clocked w t n = advance w t n (2 ^ w - 1).
Proof. induction n as [|n IH]; [reflexivity|]. rewrite advance_S, <- IH. reflexivity. Qed.
Lemma advance_add w t m n r : advance w t (m + n) r = advance w t n (advance w t m r).
Proof. revert r. induction m as [|m IH]; intros r; [reflexivity|]. apply IH. Qed.
Lemma clocked_add w t m n : clocked w t (m + n) = advance w t n (clocked w t m).
Proof. rewrite !clocked_advance. apply advance_add. Qed.

Definition good_register (w t : Z) : Prop := 1 <= t < w.

Lemma clock_range w t r : good_register w t -> 0 <= r < 2 ^ w -> 0 <= clock w t r < 2 ^ w.
Proof.
  intros G R. unfold good_register, clock in *. assert (E : 2 ^ w = 2 * 2 ^ (w - 1)) by (rewrite <- Z.pow_succ_r by lia; f_equal; lia).
  destruct (_ =? _); lia.
Qed.
Lemma clock_inj w t a b : good_register w t -> 0 <= a < 2 ^ w -> 0 <= b < 2 ^ w -> clock w t a = clock w t b -> a = b.
Proof.
  intros G A B. unfold good_register, clock in *. assert (E : 2 ^ w = 2 * 2 ^ (w - 1)) by (rewrite <- Z.pow_succ_r by lia; f_equal; lia).
  assert (T : 2 ^ t = 2 * 2 ^ (t - 1)) by (rewrite <- Z.pow_succ_r by lia; f_equal; lia).
  assert (P : 0 < 2 ^ (t - 1)) by (apply Z.pow_pos_nonneg; lia).
  rewrite T, <- !Z.div_div by lia. intros H.
  assert (H2 : a / 2 = b / 2). { destruct (_ =? _), (_ =? _) in H; lia. }
  rewrite H2 in H. set (x := (b / 2 / 2 ^ (t - 1)) mod 2) in *. assert (0 <= x < 2) by (unfold x; lia). clearbody x.
  destruct (a mod 2 =? x) eqn:E1, (b mod 2 =? x) eqn:E2; lia.
Qed.

Lemma clocked_range w t n : good_register w t -> 0 <= clocked w t n < 2 ^ w.
Proof.
  intros G. induction n as [|n IH]; [|now apply clock_range]. cbn. assert (0 < 2 ^ w) by (apply Z.pow_pos_nonneg; unfold good_register in G; lia). lia.
Qed.
Lemma advance_inj w t n a b : good_register w t -> 0 <= a < 2 ^ w -> 0 <= b < 2 ^ w -> advance w t n a = advance w t n b -> a = b.
Proof.
  intros G. revert a b. induction n as [|n IH]; intros a b A B H; [exact H|]. apply (clock_inj w t); try assumption.
  apply IH; try (now apply clock_range). exact H.
Qed.

(* the register does not return to its start for n steps, but does after n + 1 *)
Fixpoint returns_after (w t start : Z) (n : nat) (r : Z) : bool :=
  match n with
  | O => clock w t r =? start
  | S k => let r := clock w t r in negb (r =? start) && returns_after w t start k r
  end.
Lemma returns_spec w t start n r : returns_after w t start n r = true ->
  (forall k, (1 <= k <= n)%nat -> advance w t k r <> start) /\ advance w t (S n) r = start.
Proof.
  revert r. induction n as [|n IH]; intros r.
  - cbn. intros H. split; [intros; lia|]. now apply Z.eqb_eq.
  - cbn [returns_after]. cbv zeta. rewrite andb_true_iff, negb_true_iff, Z.eqb_neq. intros [H1 H2]. destruct (IH _ H2) as [H3 H4]. split.
    + intros k Hk. destruct k as [|[|k]]; [lia|exact H1|]. apply (H3 (S k)). lia.
    + exact H4.
Qed.

Section Period.
Variables w t : Z.
Hypothesis G : good_register w t.
Hypothesis R : returns_after w t (2 ^ w - 1) (Z.to_nat (2 ^ w - 2)) (2 ^ w - 1) = true.

Definition period : Z := 2 ^ w - 1.
Lemma pow_w : 4 <= 2 ^ w.
Proof. clear R. unfold good_register in G. change 4 with (2 ^ 2). apply Z.pow_le_mono_r; lia. Qed.

Lemma full_turn : clocked w t (Z.to_nat period) = 2 ^ w - 1.
Proof.
  pose proof pow_w. pose proof (returns_spec _ _ _ _ _ R) as [_ E]. rewrite clocked_advance. unfold period.
  replace (Z.to_nat (2 ^ w - 1)) with (S (Z.to_nat (2 ^ w - 2))) by lia. exact E.
Qed.
Lemma no_return k : 0 < k < period -> register w t k <> 2 ^ w - 1.
Proof.
  unfold period. intros Hk. pose proof (returns_spec _ _ _ _ _ R) as [E _]. unfold register. rewrite clocked_advance. apply E. lia.
Qed.

Lemma register_add m n : 0 <= m -> 0 <= n -> register w t (m + n) = advance w t (Z.to_nat n) (register w t m).
Proof. clear R. intros. unfold register. rewrite Z2Nat.inj_add by lia. apply clocked_add. Qed.

Lemma register_period n k : 0 <= n -> 0 <= k -> register w t (n + k * period) = register w t n.
Proof.
  intros Hn Hk. pose proof pow_w. rewrite <- (Z2Nat.id k Hk). generalize (Z.to_nat k). clear k Hk. intros k. induction k as [|k IH].
  - rewrite Z.add_comm. reflexivity.
  - replace (n + Z.of_nat (S k) * period) with (period + (n + Z.of_nat k * period)) by (rewrite Nat2Z.inj_succ; ring).
    assert (P : 0 < period) by (unfold period; lia). assert (Q : 0 <= n + Z.of_nat k * period) by nia. rewrite register_add by lia. unfold register at 1. rewrite full_turn.
    rewrite <- clocked_advance. exact IH.
Qed.
Lemma register_mod n : 0 <= n -> register w t n = register w t (n mod period).
Proof.
  intros H. pose proof pow_w. assert (P : 0 < period) by (unfold period; lia). pose proof (Z.mod_pos_bound n period P).
  pose proof (Z.div_pos n period H P) as Q. rewrite <- (register_period (n mod period) (n / period)) by tauto. f_equal. rewrite Z.mul_comm, Z.add_comm. apply Z.div_mod. lia.
Qed.
Lemma register_range n : 0 <= register w t n < 2 ^ w.
Proof. clear R. apply clocked_range. exact G. Qed.

Lemma register_inj m n : 0 <= m < period -> 0 <= n < period -> register w t m = register w t n -> m = n.
Proof.
  pose proof pow_w. assert (X : forall a b, 0 <= a -> a < b -> b < period -> register w t a <> register w t b).
  { intros a b Ha Hab Hb E. replace b with ((b - a) + a) in E by lia. rewrite register_add in E by lia.
    replace a with (0 + a) in E at 1 by lia. rewrite register_add in E by lia.
    apply advance_inj in E; [|exact G|apply register_range|apply register_range].
    apply (no_return (b - a)); [lia|]. rewrite <- E. reflexivity. }
  intros Hm Hn E. destruct (Z.lt_trichotomy m n) as [L|[L|L]].
  - exfalso. refine (X m n _ L _ E); lia.
  - exact L.
  - exfalso. refine (X n m _ L _ (eq_sym E)); lia.
Qed.

(* every nonzero contents occurs: pigeonhole *)
Lemma clock_zero r : 0 <= r < 2 ^ w -> clock w t r = 0 -> r = 0.
Proof.
  intros H E. apply (clock_inj w t r 0 G H); [pose proof pow_w; lia|]. rewrite E. unfold clock. unfold good_register in G.
  rewrite (Z.div_0_l (2 ^ t)) by (apply Z.pow_nonzero; lia). reflexivity.
Qed.
Lemma register_nonzero n : register w t n <> 0.
Proof.
  unfold register. pose proof pow_w. induction (Z.to_nat n) as [|k IH]; [cbn; lia|]. intros E. apply IH. apply clock_zero; [now apply clocked_range|exact E].
Qed.
Definition upto (n : nat) : list Z := map Z.of_nat (seq 0 n).
Lemma upto_In n v : In v (upto n) <-> 0 <= v < Z.of_nat n.
Proof.
  clear. unfold upto. rewrite in_map_iff. split.
  - intros (k & <- & H). apply in_seq in H. lia.
  - intros H. exists (Z.to_nat v). split; [lia|]. apply in_seq. lia.
Qed.
Lemma upto_nodup n : NoDup (upto n).
Proof. clear. unfold upto. apply FinFun.Injective_map_NoDup; [intros a b H; lia|apply seq_NoDup]. Qed.
Lemma nodup_map {S T} (f : S -> T) l : (forall a b, In a l -> In b l -> f a = f b -> a = b) -> NoDup l -> NoDup (map f l).
Proof.
  clear. induction l as [|x l IH]; intros I D; [constructor|]. inversion D as [|? ? D1 D2]; subst. cbn [map]. constructor.
  - intros H. apply in_map_iff in H. destruct H as (y & E & Hy). assert (y = x) by (apply I; [now right|now left|exact E]). subst. contradiction.
  - apply IH; [|exact D2]. intros a b Ha Hb. apply I; now right.
Qed.
Lemma len_upto n : length (upto n) = n.
Proof. clear. unfold upto. now rewrite map_length, seq_length. Qed.
Lemma register_onto r : 0 < r < 2 ^ w -> exists n, 0 <= n < period /\ register w t n = r.
Proof.
  intros Hr. pose proof pow_w as W. set (N := Z.to_nat period). set (l := map (register w t) (upto N)). set (l' := map Z.succ (upto N)).
  assert (I : In r l).
  { apply (NoDup_length_incl (l := l) (l' := l')).
    - apply nodup_map; [|apply upto_nodup]. intros a b Ha Hb E. apply upto_In in Ha, Hb. apply register_inj; try exact E; unfold N in *; lia.
    - unfold l, l'. rewrite !map_length. lia.
    - intros x Hx. unfold l in Hx. apply in_map_iff in Hx. destruct Hx as (n & <- & Hn). apply in_map_iff.
      exists (register w t n - 1). split; [lia|]. apply upto_In. pose proof (register_nonzero n). pose proof (register_range n). unfold N, period. lia.
    - apply in_map_iff. exists (r - 1). split; [lia|]. apply upto_In. unfold N, period. lia. }
  unfold l in I. apply in_map_iff in I. destruct I as (n & E & Hn). apply upto_In in Hn. exists n. split; [unfold N in Hn; lia|exact E].
Qed.
End Period.

Lemma registers_good w t : In (w, t) registers -> good_register w t /\ returns_after w t (2 ^ w - 1) (Z.to_nat (2 ^ w - 2)) (2 ^ w - 1) = true.
Proof.
  unfold registers, good_register. cbn [In]. intros H.
  repeat (destruct H as [H|H]; [injection H as <- <-; split; [lia|vm_compute; reflexivity]|]). destruct H.
Qed.

Lemma maximal_length w t : In (w, t) registers ->
  (forall n k, 0 <= n -> 0 <= k -> register w t (n + k * (2 ^ w - 1)) = register w t n) /\
  (forall m n, 0 <= m < 2 ^ w - 1 -> 0 <= n < 2 ^ w - 1 -> register w t m = register w t n -> m = n) /\
  (forall r, 0 < r < 2 ^ w -> exists n, 0 <= n < 2 ^ w - 1 /\ register w t n = r).
Proof.
  intros H. destruct (registers_good _ _ H) as [G R]. split; [exact (register_period w t G R)|]. split; [exact (register_inj w t G R)|exact (register_onto w t G R)].
Qed.

Lemma good9 : good_register 9 5. Proof. unfold good_register. lia. Qed.
Lemma good17 : good_register 17 5. Proof. unfold good_register. lia. Qed.
Lemma mod9 n : 0 <= n -> register 9 5 n = register 9 5 (n mod 511).
Proof. apply (register_mod 9 5); apply registers_good; cbn; auto. Qed.
Lemma mod17 n : 0 <= n -> register 17 5 n = register 17 5 (n mod 131071).
Proof. apply (register_mod 17 5); apply registers_good; cbn; auto. Qed.
Lemma mod4 n : 0 <= n -> register 4 1 n = register 4 1 (n mod 15).
Proof. apply (register_mod 4 1); apply registers_good; cbn; auto. Qed.
Lemma mod5 n : 0 <= n -> register 5 2 n = register 5 2 (n mod 31).
Proof. apply (register_mod 5 2); apply registers_good; cbn; auto. Qed.

(* ---- the tables ---- *)
Fixpoint table9_ok (l : list Z) (r : Z) : bool :=
  match l with [] => true | v :: l => let r := clock 9 5 r in (v =? r mod 256) && table9_ok l r end.
Lemma table9_spec l r : table9_ok l r = true -> forall i v, nth_error l i = Some v -> v = advance 9 5 (S i) r mod 256.
Proof.
  revert r. induction l as [|x l IH]; intros r H i v E; [destruct i; discriminate E|].
  cbn [table9_ok] in H. cbv zeta in H. rewrite andb_true_iff, Z.eqb_eq in H. destruct H as [H1 H2]. destruct i as [|i].
  - injection E as <-. exact H1.
  - exact (IH _ H2 i v E).
Qed.
Fixpoint table17_ok (l : list Z) (r : Z) : bool :=
  match l with [] => true | v :: l => let r := advance 17 5 8 r in (v =? (r / 2) mod 256) && table17_ok l r end.
Lemma table17_spec l r : table17_ok l r = true -> forall i v, nth_error l i = Some v -> v = (advance 17 5 (8 * S i) r / 2) mod 256.
Proof.
  revert r. induction l as [|x l IH]; intros r H i v E; [destruct i; discriminate E|].
  cbn [table17_ok] in H. cbv zeta in H. rewrite andb_true_iff, Z.eqb_eq in H. destruct H as [H1 H2]. destruct i as [|i].
  - injection E as <-. exact H1.
  - rewrite (IH _ H2 i v E). replace (8 * S (S i))%nat with (8 + 8 * S i)%nat by lia. now rewrite advance_add.
Qed.
Lemma poly9_table_ok : table9_ok poly9Lookup 511 = true. Proof. vm_compute. reflexivity. Qed.
Lemma poly17_table_ok : table17_ok poly17Lookup 131071 = true. Proof. vm_compute. reflexivity. Qed.

Lemma len_poly9 : len poly9Lookup = 511. Proof. vm_compute. reflexivity. Qed.
Lemma len_poly17 : len poly17Lookup = 16385. Proof. vm_compute. reflexivity. Qed.

Lemma get_nth l i v : 0 <= i -> get l i = Ok v -> nth_error l (Z.to_nat i) = Some v.
Proof. unfold get. intros H. destruct (i <? 0) eqn:E; [lia|]. destruct (nth_error l (Z.to_nat i)); intros G; [now injection G as ->|discriminate]. Qed.

Lemma get_poly9 n : 0 <= n -> get poly9Lookup (Z.rem n 511) = Ok (register 9 5 (n + 1) mod 256).
Proof.
  intros H. rewrite Z.rem_mod_nonneg by lia. assert (R : 0 <= n mod 511 < 511) by lia.
  pose proof (get_ok poly9Lookup (n mod 511)) as G. rewrite len_poly9 in G. specialize (G R). rewrite G. f_equal.
  apply get_nth in G; [|lia]. rewrite (table9_spec _ _ poly9_table_ok _ _ G). f_equal. change 511 with (2 ^ 9 - 1) at 2. rewrite <- clocked_advance.
  rewrite (mod9 (n + 1)) by lia.
  unfold register. replace (Z.to_nat ((n + 1) mod 511)) with (Z.to_nat ((n mod 511 + 1) mod 511)) by lia.
  pose proof (mod9 (n mod 511 + 1) ltac:(lia)) as M. unfold register in M. rewrite <- M. f_equal. lia.
Qed.

(* the eight bits of the 17-bit register at clock 8 j + 9 *)
Lemma get_poly17 j : 0 <= j < 16385 -> get poly17Lookup j = Ok (register 17 5 (8 * j + 9) mod 256).
Proof.
  intros R. pose proof (get_ok poly17Lookup j) as G. rewrite len_poly17 in G. specialize (G R). rewrite G. f_equal.
  apply get_nth in G; [|lia]. rewrite (table17_spec _ _ poly17_table_ok _ _ G). change 131071 with (2 ^ 17 - 1). rewrite <- clocked_advance.
  replace (register 17 5 (8 * j + 9)) with (clock 17 5 (clocked 17 5 (8 * S (Z.to_nat j)))).
  - pose proof (clocked_range 17 5 (8 * S (Z.to_nat j)) good17) as C. revert C. generalize (clocked 17 5 (8 * S (Z.to_nat j))). intros r C.
    unfold clock. change (2 ^ (17 - 1)) with (256 * 256). destruct (_ =? _); lia.
  - unfold register. replace (Z.to_nat (8 * j + 9)) with (S (8 * S (Z.to_nat j))) by lia. reflexivity.
Qed.

Lemma clock17_low r : 0 <= r < 131072 -> clock 17 5 r mod 65536 = r / 2.
Proof. intros H. unfold clock. change (2 ^ (17 - 1)) with 65536. destruct (_ =? _); lia. Qed.
Lemma register_S n : 0 <= n -> register 17 5 (n + 1) = clock 17 5 (register 17 5 n).
Proof. intros H. unfold register. replace (Z.to_nat (n + 1)) with (S (Z.to_nat n)) by lia. reflexivity. Qed.
Lemma register17_range n : 0 <= register 17 5 n < 131072.
Proof. exact (register_range 17 5 good17 n). Qed.
(* the bits of the register are the coming outputs *)
Lemma register_shift n k : 0 <= n -> 0 <= k <= 8 -> register 17 5 (n + k) mod 256 = (register 17 5 n / 2 ^ k) mod 256.
Proof.
  intros Hn Hk.
  assert (X : register 17 5 (n + k) mod 2 ^ (17 - k) = register 17 5 n / 2 ^ k).
  { assert (K0 : 0 <= k) by lia. revert Hk. pattern k. apply natlike_ind; [| |exact K0].
    - intros _. rewrite Z.add_0_r. change (2 ^ (17 - 0)) with 131072. change (2 ^ 0) with 1. pose proof (register17_range n). rewrite Z.div_1_r. apply Z.mod_small. assumption.
    - clear k K0. intros k H0 IH H1. specialize (IH ltac:(lia)). replace (n + Z.succ k) with (n + k + 1) by lia. rewrite register_S by lia.
      pose proof (register17_range (n + k)) as R1. pose proof (register17_range n) as R2. pose proof (clock17_low _ R1) as C.
      assert (K : k = 0 \/ k = 1 \/ k = 2 \/ k = 3 \/ k = 4 \/ k = 5 \/ k = 6 \/ k = 7) by lia.
      revert IH R1 R2 C. generalize (register 17 5 (n + k)) (register 17 5 n). intros a b. generalize (clock 17 5 a). intros c IH R1 R2 C.
      repeat (destruct K as [K|K]; [subst k; cbn in *; lia|]). subst k. cbn in *. lia. }
  assert (K : k = 0 \/ k = 1 \/ k = 2 \/ k = 3 \/ k = 4 \/ k = 5 \/ k = 6 \/ k = 7 \/ k = 8) by lia.
  revert X. generalize (register 17 5 (n + k)) (register 17 5 n). intros a b X.
  repeat (destruct K as [K|K]; [subst k; cbn in *; lia|]). subst k. cbn in *. lia.
Qed.

Lemma poly17_bits n : 0 <= n -> let i := Z.rem n 131071 in
  get poly17Lookup (Z.shiftr i 3) = Ok (register 17 5 (8 * (i / 8) + 9) mod 256) /\
  get poly17Lookup (Z.shiftr i 3 + 1) = Ok (register 17 5 (8 * (i / 8) + 17) mod 256) /\ Z.land i 7 = i mod 8 /\
  register 17 5 (n + 9) mod 256 = (register 17 5 (8 * (i / 8) + 9) / 2 ^ (i mod 8)) mod 256.
Proof.
  intros H i. assert (R : 0 <= i < 131071) by (unfold i; rewrite Z.rem_mod_nonneg by lia; lia).
  rewrite Z.shiftr_div_pow2 by lia. change (2 ^ 3) with 8. split; [|split; [|split]].
  - apply get_poly17. lia.
  - rewrite get_poly17 by lia. replace (8 * (i / 8 + 1) + 9) with (8 * (i / 8) + 17) by lia. reflexivity.
  - change 7 with (2 ^ 3 - 1). rewrite land_ones_mod by lia. reflexivity.
  - rewrite <- register_shift by lia. replace (8 * (i / 8) + 9 + i mod 8) with (i + 9) by lia.
    rewrite (mod17 (n + 9)), (mod17 (i + 9)) by lia. unfold i. rewrite Z.rem_mod_nonneg by lia.
    replace ((n mod 131071 + 9) mod 131071) with ((n + 9) mod 131071) by lia. reflexivity.
Qed.

(* ---- RANDOM ---- *)
Definition selected (addr : Z) (pp : pokeyPair) : pokey :=
  if negb (Z.land addr (pp_extraPokeyMask pp) =? 0) then pp_extraPokey pp else pp_basePokey pp.

Lemma random_read addr cycle pp : Z.land addr 15 = 10 -> 0 <= cycle -> 0 <= pk_polyIndex (selected addr pp) ->
  let p := selected addr pp in let n := pk_polyIndex p + cycle in
  pair_peek addr cycle pp = Ok (if pk_init p then 255
                                else if Z.testbit (pk_audctl p) 7 then register 9 5 (n + 1) mod 256 else register 17 5 (n + 9) mod 256).
Proof.
  intros A C P p n. unfold pair_peek. fold (selected addr pp). fold p. rewrite A.
  destruct (pk_init p); [reflexivity|]. cbv zeta. replace (cycle + pk_polyIndex p) with n by (unfold n; lia). assert (N : 0 <= n) by (unfold n, p; lia). clearbody n.
  assert (T : negb (Z.land (pk_audctl p) 128 =? 0) = Z.testbit (pk_audctl p) 7).
  { change 128 with (2 ^ 7). generalize (pk_audctl p). intros v. destruct (Z.testbit v 7) eqn:E.
    - apply negb_true_iff, Z.eqb_neq. intros Z0. assert (X : Z.testbit (Z.land v (2 ^ 7)) 7 = true) by (rewrite Z.land_spec, E, Z.pow2_bits_true by lia; reflexivity).
      rewrite Z0 in X. rewrite Z.bits_0 in X. discriminate.
    - apply negb_false_iff, Z.eqb_eq. apply Z.bits_inj. intros k. rewrite Z.land_spec, Z.bits_0. destruct (Z.eq_dec k 7) as [->|D]; [now rewrite E|].
      rewrite Z.pow2_bits_false by lia. apply andb_false_r. }
  rewrite T. destruct (Z.testbit (pk_audctl p) 7); [now apply get_poly9|].
  destruct (poly17_bits n N) as (G1 & G2 & L & E). rewrite G1, G2, L. cbn [bind]. rewrite E. clear G1 G2 L E T.
  pose proof (register_shift (8 * (Z.rem n 131071 / 8) + 9) 8) as S8. assert (R : 0 <= Z.rem n 131071) by (rewrite Z.rem_mod_nonneg by lia; lia).
  specialize (S8 ltac:(lia) ltac:(lia)). replace (8 * (Z.rem n 131071 / 8) + 9 + 8) with (8 * (Z.rem n 131071 / 8) + 17) in S8 by lia. rewrite S8. clear S8.
  pose proof (register17_range (8 * (Z.rem n 131071 / 8) + 9)) as RR. revert RR. generalize (register 17 5 (8 * (Z.rem n 131071 / 8) + 9)). intros r RR.
  assert (K : 0 <= Z.rem n 131071 mod 8 <= 7) by lia. revert K. generalize (Z.rem n 131071 mod 8). intros k K. f_equal.
  change 255 with (2 ^ 8 - 1). rewrite land_ones_mod by lia. rewrite Z.shiftr_div_pow2, Z.shiftl_mul_pow2 by lia.
  assert (KK : k = 0 \/ k = 1 \/ k = 2 \/ k = 3 \/ k = 4 \/ k = 5 \/ k = 6 \/ k = 7) by lia.
  repeat (destruct KK as [KK|KK]; [subst k; cbn; lia|]). subst k. cbn. lia.
Qed.

(* the bits a register holds are its coming outputs *)
Lemma register_bit w t k : In (w, t) registers -> 0 <= k -> forall n, k < w -> 0 <= n -> Z.testbit (register w t n) k = (noise w t (n + k) =? 1).
Proof.
  intros H K. destruct (registers_good _ _ H) as [G _]. pattern k. apply natlike_ind; [| |exact K].
  - intros n _ _. rewrite Z.add_0_r, Z.bit0_odd. unfold noise. rewrite Zmod_odd. destruct (Z.odd _); reflexivity.
  - clear k K. intros k K IH n L N. replace (n + Z.succ k) with (n + 1 + k) by lia. rewrite <- IH by lia.
    replace (register w t (n + 1)) with (clock w t (register w t n)) by (unfold register; replace (Z.to_nat (n + 1)) with (S (Z.to_nat n)) by lia; reflexivity).
    pose proof (register_range w t G n) as R. rewrite <- (Z.mod_pow2_bits_low (clock _ _ _) (w - 1)) by lia.
    assert (P : 2 ^ w = 2 * 2 ^ (w - 1)) by (rewrite <- Z.pow_succ_r by lia; f_equal; lia).
    replace (clock w t (register w t n) mod 2 ^ (w - 1)) with (register w t n / 2).
    + rewrite <- Z.add_1_r. change (register w t n / 2) with (register w t n / 2 ^ 1). now rewrite Z.div_pow2_bits by lia.
    + unfold clock. destruct (_ =? _).
      * rewrite Z.add_0_r. symmetry. apply Z.mod_small. lia.
      * rewrite Z.add_mod, Z.mod_same, Z.add_0_r, Z.mod_mod by lia. symmetry. apply Z.mod_small. lia.
Qed.
