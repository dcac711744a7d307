(* Proofs about ConvModel.v *)
From Coq Require Import String.
From Verif Require Import Base BaseFacts InfoModel InfoSpec InfoProofs WriterModel WriterProofs ConvModel ConvSpec.

(* ------------------------------------------------------------------ *)
(* numerals                                                            *)
Lemma value_snoc t c : value (t ++ [c]) = 10 * value t + (c - 48).
Proof. unfold value. rewrite fold_left_app. reflexivity. Qed.

Lemma value_nonneg t : Forall (fun c => 48 <= c <= 57) t -> 0 <= value t.
Proof.
  induction t as [|c t IH] using rev_ind; intros H; [unfold value; cbn; lia|].
  rewrite value_snoc. apply Forall_app in H. destruct H as [H1 H2]. inversion H2; subst. specialize (IH H1). lia.
Qed.

Lemma value_pos t : Forall (fun c => 48 <= c <= 57) t -> t <> [] -> hd 0 t <> 48 -> 1 <= value t.
Proof.
  induction t as [|c t IH] using rev_ind; intros H N D; [congruence|].
  rewrite value_snoc. apply Forall_app in H. destruct H as [H1 H2]. inversion H2; subst.
  destruct t as [|d t]; [cbn in D; unfold value; cbn [fold_left]; lia|].
  specialize (IH H1 ltac:(discriminate) D). lia.
Qed.

Lemma numeral_digits n : forall v, 0 <= v < 10 ^ Z.of_nat (S n) -> numeral (dec_digits (S n) v) v.
Proof.
  induction n as [|n IH]; intros v H.
  - change (10 ^ Z.of_nat 1) with 10 in H. cbn [dec_digits]. replace (v <? 10) with true by lia.
    split; [constructor; [lia|constructor]|]. split; [unfold value; cbn [fold_left]; lia|]. split; [discriminate|].
    cbn [hd]. intros E. f_equal. lia.
  - cbn [dec_digits]. destruct (v <? 10) eqn:E.
    + split; [constructor; [lia|constructor]|]. split; [unfold value; cbn [fold_left]; lia|]. split; [discriminate|].
      cbn [hd]. intros E'. f_equal. lia.
    + assert (P : 0 <= v / 10 < 10 ^ Z.of_nat (S n)).
      { rewrite (Nat2Z.inj_succ (S n)), Z.pow_succ_r in H by lia. lia. }
      destruct (IH _ P) as (D & V & N & Z0). change (if v / 10 <? 10 then [48 + v / 10] else dec_digits n (v / 10 / 10) ++ [48 + (v / 10) mod 10]) with (dec_digits (S n) (v / 10)).
      set (t := dec_digits (S n) (v / 10)) in *. clearbody t.
      split; [apply Forall_app; split; [exact D|constructor; [lia|constructor]]|].
      split; [rewrite value_snoc, V; lia|]. split; [now destruct t|].
      destruct t as [|c t]; [congruence|]. cbn [app hd] in *. intros E'. specialize (Z0 E'). injection Z0 as -> ->.
      unfold value in V. cbn [fold_left] in V. lia.
Qed.

Lemma numeral_same t : forall u v, numeral t v -> numeral u v -> t = u.
Proof.
  induction t as [|c t IH] using rev_ind; intros u v (D & V & N & Z0) (D' & V' & N' & Z0'); [congruence|].
  destruct (exists_last N') as (w & d & ->).
  rewrite value_snoc in V, V'. apply Forall_app in D, D'. destruct D as [D1 D2], D' as [D1' D2']. inversion D2; inversion D2'; subst.
  pose proof (value_nonneg _ D1). pose proof (value_nonneg _ D1').
  assert (c = d) by lia. subst d. f_equal.
  assert (E : value w = value t) by lia.
  destruct t as [|a t], w as [|b w].
  - reflexivity.
  - exfalso. cbn [app hd] in Z0'. assert (HX : hd 0 (b :: w) <> 48). { intros X. cbn in X. specialize (Z0' X). now destruct w. }
    pose proof (value_pos _ D1' ltac:(discriminate) HX). change (value []) with 0 in E. lia.
  - exfalso. cbn [app hd] in Z0. assert (HX : hd 0 (a :: t) <> 48). { intros X. cbn in X. specialize (Z0 X). now destruct t. }
    pose proof (value_pos _ D1 ltac:(discriminate) HX). change (value []) with 0 in E. lia.
  - apply (IH _ (value (a :: t))).
    + split; [exact D1|]. split; [reflexivity|]. split; [discriminate|]. intros X. exfalso. specialize (Z0 X). now destruct t.
    + split; [exact D1'|]. split; [exact E|]. split; [discriminate|]. intros X. exfalso. specialize (Z0' X). now destruct w.
Qed.

Lemma print_numeral v : 0 <= v < 10 ^ 10 -> numeral (print_int v) v.
Proof. intros H. apply (numeral_digits 9). exact H. Qed.

(* ------------------------------------------------------------------ *)
(* positions of characters                                             *)
Lemma last_index_none c s : last_index c s = None <-> ~ In c s.
Proof.
  induction s as [|x r IH]; cbn [last_index In]; [tauto|].
  destruct (last_index c r) as [i|].
  - split; [discriminate|]. intros H. exfalso. apply H. right. destruct (in_dec Z.eq_dec c r) as [|n]; [assumption|]. apply IH in n. discriminate.
  - destruct (Z.eqb_spec x c).
    + split; [discriminate|]. intros H. exfalso. apply H. now left.
    + split; [|reflexivity]. intros _ [|]; [contradiction|]. now apply IH.
Qed.

Lemma last_index_app c a b : ~ In c b -> last_index c (a ++ c :: b) = Some (len a).
Proof.
  intros H. induction a as [|x a IH]; cbn [app last_index].
  - apply last_index_none in H. rewrite H, Z.eqb_refl. reflexivity.
  - rewrite IH. f_equal. rewrite len_cons. lia.
Qed.

Lemma take_drop p l : take_until p l ++ drop_until p l = l.
Proof. induction l as [|c r IH]; cbn [take_until drop_until]; [reflexivity|]. destruct (p c); cbn [app]; congruence. Qed.

Lemma take_none p l : Forall (fun c => p c = false) (take_until p l).
Proof. induction l as [|c r IH]; cbn [take_until]; [constructor|]. destruct (p c) eqn:E; [constructor|now constructor]. Qed.

Lemma drop_hd p l : drop_until p l = [] \/ exists c r, drop_until p l = c :: r /\ p c = true.
Proof. induction l as [|c r IH]; cbn [drop_until]; [now left|]. destruct (p c) eqn:E; [right; eauto|exact IH]. Qed.

Lemma take_all p l : Forall (fun c => p c = false) l -> take_until p l = l.
Proof. induction 1 as [|c r H _ IH]; cbn [take_until]; [reflexivity|]. now rewrite H, IH. Qed.

Lemma take_app p a c b : Forall (fun c => p c = false) a -> p c = true -> take_until p (a ++ c :: b) = a.
Proof. intros H E. induction H as [|x r H _ IH]; cbn [app take_until]; [now rewrite E|]. now rewrite H, IH. Qed.

Lemma dot_split s : In 46 s -> s = stem s ++ dot_ext s.
Proof.
  intros H. unfold stem, dot_ext.
  assert (E : rev s = take_until (Z.eqb 46) (rev s) ++ drop_until (Z.eqb 46) (rev s)) by (symmetry; apply take_drop).
  destruct (drop_hd (Z.eqb 46) (rev s)) as [D|(c & r & D & Hc)].
  - exfalso. rewrite D, app_nil_r in E. apply in_rev in H. rewrite E in H.
    pose proof (take_none (Z.eqb 46) (rev s)) as T. rewrite Forall_forall in T. specialize (T 46 H). discriminate.
  - rewrite D in *. cbn [tl]. apply Z.eqb_eq in Hc. subst c.
    rewrite <- (rev_involutive s), E at 1. rewrite rev_app_distr. cbn [rev]. now rewrite <- app_assoc.
Qed.

Lemma dot_ext_no_dot s : ~ In 46 (tl (dot_ext s)).
Proof.
  unfold dot_ext. cbn [tl]. rewrite <- in_rev. intros H.
  pose proof (take_none (Z.eqb 46) (rev s)) as T. rewrite Forall_forall in T. specialize (T 46 H). discriminate.
Qed.

Lemma last_dot s : In 46 s -> last_index 46 s = Some (len (stem s)).
Proof.
  intros H. rewrite (dot_split s H) at 1. change (dot_ext s) with (46 :: tl (dot_ext s)).
  apply last_index_app, dot_ext_no_dot.
Qed.

Lemma base_name_none s : Forall (fun c => is_slash c = false) s -> base_name s = s.
Proof. intros H. unfold base_name. rewrite take_all by now apply Forall_rev. apply rev_involutive. Qed.

Lemma base_name_app a c b : Forall (fun c => is_slash c = false) b -> is_slash c = true -> base_name (a ++ c :: b) = b.
Proof.
  intros H E. unfold base_name. rewrite rev_app_distr. cbn [rev]. rewrite <- app_assoc. cbn [app].
  rewrite take_app; [apply rev_involutive|now apply Forall_rev|exact E].
Qed.

Lemma slash_cases s : Forall (fun c => is_slash c = false) s \/ exists a c b, s = a ++ c :: b /\ is_slash c = true /\ Forall (fun c => is_slash c = false) b.
Proof.
  induction s as [|x r [IH|(a & c & b & -> & H1 & H2)]].
  - left. constructor.
  - destruct (is_slash x) eqn:E; [right; exists [], x, r; now repeat split|left; now constructor].
  - right. exists (x :: a), c, b. now repeat split.
Qed.

Lemma past_slashes_none best p : Forall (fun c => is_slash c = false) p -> past_slashes best p = best.
Proof.
  intros H. revert best. induction H as [|c r H _ IH]; intros best; cbn [past_slashes]; [reflexivity|].
  unfold is_slash in H. now rewrite H, IH.
Qed.

Lemma past_slashes_app a c b : is_slash c = true -> Forall (fun c => is_slash c = false) b ->
  forall best, past_slashes best (a ++ c :: b) = b.
Proof.
  intros Hc Hb. induction a as [|x a IH]; intros best; cbn [app past_slashes].
  - unfold is_slash in Hc. rewrite Hc. now apply past_slashes_none.
  - apply IH.
Qed.

Lemma past_slashes_base s : past_slashes s s = base_name s.
Proof.
  destruct (slash_cases s) as [H|(a & c & b & -> & H1 & H2)].
  - now rewrite base_name_none, past_slashes_none.
  - now rewrite base_name_app, past_slashes_app.
Qed.

Lemma supported_no_slash ext : In (map lower ext) supported_exts -> Forall (fun c => is_slash c = false) ext.
Proof.
  intros H. rewrite Forall_forall. intros c Hc. apply (in_map lower) in Hc.
  assert (A : forallb (fun e => forallb (fun c => negb (is_slash c)) e) supported_exts = true) by reflexivity.
  rewrite forallb_forall in A. specialize (A _ H). rewrite forallb_forall in A. specialize (A _ Hc).
  unfold lower, is_slash in *. destruct ((65 <=? c) && (c <=? 90)) eqn:E; lia.
Qed.

Lemma our_dots s : is_our_file s = true -> In 46 s /\ In 46 (base_name s).
Proof.
  intros H. apply is_our_file_spec in H. destruct H as (st & ext & -> & _ & H). apply supported_no_slash in H.
  split; [apply in_or_app; right; now left|].
  destruct (slash_cases st) as [S|(a & c & b & -> & H1 & H2)].
  - rewrite base_name_none; [apply in_or_app; right; now left|]. apply Forall_app. split; [exact S|]. constructor; [reflexivity|exact H].
  - rewrite <- app_assoc. cbn [app]. rewrite base_name_app; [apply in_or_app; right; now left| |exact H1].
    apply Forall_app. split; [exact H2|]. constructor; [reflexivity|exact H].
Qed.
