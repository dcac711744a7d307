(* Facts about the vocabulary of Base.v *)
From Verif Require Import Base.

Lemma len_nonneg {A} (l : list A) : 0 <= len l.
Proof. unfold len; lia. Qed.

Lemma len_nil {A} : len (@nil A) = 0.
Proof. reflexivity. Qed.

Lemma len_cons {A} (x : A) l : len (x :: l) = 1 + len l.
Proof. unfold len; cbn [length]; lia. Qed.

Lemma len_app {A} (l k : list A) : len (l ++ k) = len l + len k.
Proof. unfold len; rewrite app_length; lia. Qed.

Lemma len_repeat {A} (x : A) n : len (repeat x n) = Z.of_nat n.
Proof. unfold len; now rewrite repeat_length. Qed.

Lemma len_0_nil {A} (l : list A) : len l = 0 -> l = [].
Proof. destruct l; [reflexivity|rewrite len_cons; pose proof (len_nonneg l); lia]. Qed.

Lemma get_ok l i : 0 <= i < len l -> get l i = Ok (at_ l i).
Proof.
  intros H. unfold get, at_. destruct (Z.ltb_spec i 0); [lia|].
  destruct (nth_error l (Z.to_nat i)) eqn:E.
  - now rewrite (nth_error_nth _ _ _ E).
  - apply nth_error_None in E. unfold len in H. lia.
Qed.

Lemma get_inv l i b : get l i = Ok b -> 0 <= i < len l /\ b = at_ l i.
Proof.
  unfold get, at_. destruct (Z.ltb_spec i 0); [discriminate|].
  destruct (nth_error l (Z.to_nat i)) eqn:E; [|discriminate].
  intros [= ->]. split.
  - assert (Z.to_nat i < length l)%nat by (apply nth_error_Some; congruence).
    unfold len; lia.
  - symmetry. now apply nth_error_nth.
Qed.

Lemma get_ub l i : ~ (0 <= i < len l) -> get l i = UB UbRead.
Proof.
  intros H. unfold get. destruct (Z.ltb_spec i 0); [reflexivity|].
  destruct (nth_error l (Z.to_nat i)) eqn:E; [|reflexivity].
  exfalso. apply H. assert (Z.to_nat i < length l)%nat by (apply nth_error_Some; congruence).
  unfold len; lia.
Qed.

Lemma at_cons_0 x l : at_ (x :: l) 0 = x.
Proof. reflexivity. Qed.

Lemma at_cons_S x l i : 0 < i -> at_ (x :: l) i = at_ l (i - 1).
Proof.
  intros H. unfold at_. replace (Z.to_nat i) with (S (Z.to_nat (i - 1))) by lia. reflexivity.
Qed.

Lemma at_app1 l k i : 0 <= i < len l -> at_ (l ++ k) i = at_ l i.
Proof. intros H. unfold at_. apply app_nth1. unfold len in H. lia. Qed.

Lemma at_app2 l k i : len l <= i -> at_ (l ++ k) i = at_ k (i - len l).
Proof.
  intros H. unfold at_. rewrite app_nth2; [|unfold len in H; lia].
  f_equal. unfold len in *. lia.
Qed.

Lemma at_byte l i : bytes l -> 0 <= i < len l -> byte (at_ l i).
Proof.
  intros Hb H. unfold at_. apply (proj1 (Forall_forall byte l) Hb).
  apply nth_In. unfold len in H. lia.
Qed.

Lemma at_byte' l i : bytes l -> byte (at_ l i).
Proof.
  intros Hb. unfold at_. destruct (nth_in_or_default (Z.to_nat i) l 0) as [H|H].
  - now apply (proj1 (Forall_forall byte l) Hb).
  - rewrite H. unfold byte; lia.
Qed.

Lemma bytesb_spec l : bytesb l = true <-> bytes l.
Proof.
  unfold bytesb, bytes. rewrite forallb_forall, Forall_forall.
  split; intros H x Hx; specialize (H x Hx); unfold byteb, byte in *; lia.
Qed.

Lemma bytes_app l k : bytes (l ++ k) <-> bytes l /\ bytes k.
Proof. apply Forall_app. Qed.

Lemma skipn_at l i : 0 <= i < len l -> skipn (Z.to_nat i) l = at_ l i :: skipn (Z.to_nat (i + 1)) l.
Proof.
  intros H. replace (Z.to_nat (i + 1)) with (S (Z.to_nat i)) by lia.
  unfold at_, len in *. assert (K : (Z.to_nat i < length l)%nat) by lia. clear H.
  generalize dependent (Z.to_nat i). clear i. induction l as [|x l IH]; intros n K; cbn [length] in K; [lia|].
  destruct n as [|n]; [reflexivity|].
  cbn [nth]. change (skipn (S n) (x :: l)) with (skipn n l).
  change (skipn (S (S n)) (x :: l)) with (skipn (S n) l). apply IH. lia.
Qed.

Lemma len_slice l i j : 0 <= i -> i <= j -> j <= len l -> len (slice l i j) = j - i.
Proof.
  intros. unfold slice, len in *. rewrite firstn_length, skipn_length. lia.
Qed.

Lemma slice_nil l i : slice l i i = [].
Proof. unfold slice. now rewrite Z.sub_diag. Qed.

Lemma slice_cons l i j : 0 <= i < j -> j <= len l -> slice l i j = at_ l i :: slice l (i + 1) j.
Proof.
  intros H1 H2. unfold slice. rewrite skipn_at by lia.
  replace (Z.to_nat (j - i)) with (S (Z.to_nat (j - (i + 1)))) by lia. reflexivity.
Qed.

Lemma slice_full l : slice l 0 (len l) = l.
Proof.
  unfold slice. rewrite Z.sub_0_r. cbn [Z.to_nat skipn]. unfold len. rewrite Nat2Z.id. apply firstn_all.
Qed.

Lemma slice_app_l l k i j : 0 <= i -> j <= len l -> slice (l ++ k) i j = slice l i j.
Proof.
  intros Hi H. unfold slice, len in *.
  destruct (Z.leb_spec j i) as [C|C].
  { replace (Z.to_nat (j - i)) with 0%nat by lia. reflexivity. }
  rewrite skipn_app, firstn_app, skipn_length.
  replace (Z.to_nat (j - i) - (length l - Z.to_nat i))%nat with 0%nat by lia.
  cbn [firstn]. now rewrite app_nil_r.
Qed.

Lemma slice_app_r l k i j : len l <= i -> slice (l ++ k) i j = slice k (i - len l) (j - len l).
Proof.
  intros H. pose proof (len_nonneg l). unfold slice.
  replace (j - len l - (i - len l)) with (j - i) by lia. f_equal.
  unfold len in *. rewrite skipn_app.
  replace (skipn (Z.to_nat i) l) with (@nil Z).
  2:{ symmetry. apply skipn_all2. lia. }
  cbn [app]. f_equal. lia.
Qed.

Lemma skipn_skipn_plus {A} (l : list A) a b : skipn a (skipn b l) = skipn (b + a) l.
Proof.
  revert l; induction b as [|b IH]; intros l; [reflexivity|].
  destruct l as [|x l]; cbn [skipn plus]; [now destruct a|apply IH].
Qed.

Lemma slice_cat l i j k : 0 <= i -> i <= j -> j <= k -> k <= len l ->
  slice l i j ++ slice l j k = slice l i k.
Proof.
  intros H0 H1 H2 H3. unfold slice.
  replace (Z.to_nat (k - i)) with (Z.to_nat (j - i) + Z.to_nat (k - j))%nat by lia.
  replace (skipn (Z.to_nat j) l) with (skipn (Z.to_nat (j - i)) (skipn (Z.to_nat i) l)).
  2:{ rewrite skipn_skipn_plus. f_equal. lia. }
  generalize (skipn (Z.to_nat i) l) as r. generalize (Z.to_nat (k - j)) as n.
  generalize (Z.to_nat (j - i)) as m. clear. induction m as [|m IH]; intros n r; [reflexivity|].
  destruct r as [|x r]; cbn [skipn firstn plus].
  - destruct n; reflexivity.
  - cbn [app]. now rewrite IH.
Qed.

Lemma at_slice l i j k : 0 <= i -> 0 <= k < j - i -> j <= len l -> at_ (slice l i j) k = at_ l (i + k).
Proof.
  intros Hi Hk Hj.
  assert (E : l = slice l 0 i ++ slice l i j ++ slice l j (len l)).
  { rewrite <- (slice_full l) at 1. rewrite (slice_cat l i j), slice_cat; lia || reflexivity. }
  rewrite E at 2. rewrite at_app2; rewrite len_slice by lia; [|lia].
  rewrite at_app1; [f_equal; lia|]. rewrite len_slice; lia.
Qed.

Lemma get_range_ok l i j : 0 <= i -> i <= j -> j <= len l -> get_range l i j = Ok (slice l i j).
Proof.
  intros. unfold get_range. destruct (Z.ltb_spec (j - i) 0); [lia|].
  destruct (Z.ltb_spec i 0); [lia|]. destruct (Z.ltb_spec (len l) j); [lia|]. reflexivity.
Qed.

Lemma get_range_inv l i j r : get_range l i j = Ok r ->
  0 <= i /\ i <= j /\ j <= len l /\ r = slice l i j.
Proof.
  unfold get_range. destruct (Z.ltb_spec (j - i) 0); [discriminate|].
  destruct (Z.ltb_spec i 0); [discriminate|]. destruct (Z.ltb_spec (len l) j); [discriminate|].
  intros [= <-]. repeat split; lia.
Qed.

Lemma list_eq_at l k : len l = len k -> (forall i, 0 <= i < len l -> at_ l i = at_ k i) -> l = k.
Proof.
  intros Hl H. apply (nth_ext _ _ 0 0).
  - unfold len in Hl; lia.
  - intros n Hn. specialize (H (Z.of_nat n)). unfold at_ in H. rewrite Nat2Z.id in H. apply H.
    unfold len; lia.
Qed.

Lemma bytes_slice l i j : bytes l -> bytes (slice l i j).
Proof.
  intros H. unfold slice. apply Forall_forall. intros x Hx.
  apply (proj1 (Forall_forall byte l) H).
  assert (In x (skipn (Z.to_nat i) l)).
  { rewrite <- (firstn_skipn (Z.to_nat (j - i)) (skipn (Z.to_nat i) l)). apply in_or_app. now left. }
  rewrite <- (firstn_skipn (Z.to_nat i) l). apply in_or_app. now right.
Qed.

Lemma length_upd {A} (l : list A) i v : length (upd l i v) = length l.
Proof. revert i; induction l as [|x l IH]; intros [|i]; cbn [upd length]; congruence || reflexivity. Qed.

Lemma len_upd {A} (l : list A) i v : len (upd l i v) = len l.
Proof. unfold len; now rewrite length_upd. Qed.

Lemma nth_upd_eq {A} (l : list A) i v d : (i < length l)%nat -> nth i (upd l i v) d = v.
Proof.
  revert i; induction l as [|x l IH]; intros [|i] H; cbn [upd nth length] in *; try lia; try reflexivity.
  apply IH; lia.
Qed.

Lemma nth_upd_ne {A} (l : list A) i j v d : i <> j -> nth j (upd l i v) d = nth j l d.
Proof.
  revert i j; induction l as [|x l IH]; intros [|i] [|j] H; cbn [upd nth]; try reflexivity; try congruence.
  apply IH; congruence.
Qed.

Lemma cstr_id s : Forall (fun c => c <> 0) s -> cstr s = s.
Proof.
  induction 1 as [|c s Hc _ IH]; [reflexivity|]. cbn [cstr].
  destruct (Z.eqb_spec c 0); [contradiction|]. now rewrite IH.
Qed.

Lemma cstr_nonzero s : Forall (fun c => c <> 0) (cstr s).
Proof.
  induction s as [|c s IH]; cbn [cstr]; [constructor|].
  destruct (Z.eqb_spec c 0); [constructor|]. now constructor.
Qed.

Lemma len_cstr s : len (cstr s) <= len s.
Proof.
  induction s as [|c s IH]; cbn [cstr]; [lia|].
  destruct (c =? 0); rewrite ?len_cons, ?len_nil; pose proof (len_nonneg s); lia.
Qed.

Lemma bind_ok {A B} (m : outcome A) (f : A -> outcome B) b :
  bind m f = Ok b -> exists a, m = Ok a /\ f a = Ok b.
Proof. destruct m; cbn [bind]; try discriminate. intros H. now exists a. Qed.

Lemma guard_ok b (u : unit) : guard b = Ok u -> b = true.
Proof. destruct b; [reflexivity|discriminate]. Qed.

Lemma land_255 v : Z.land v 255 = v mod 256.
Proof. change 255 with (Z.ones 8). now rewrite Z.land_ones by lia. Qed.

Lemma land_ones_mod v n : 0 <= n -> Z.land v (2 ^ n - 1) = v mod 2 ^ n.
Proof. intros H. rewrite <- Z.land_ones by lia. f_equal. rewrite Z.ones_equiv. lia. Qed.

Lemma eqb_list_spec a b : eqb_list a b = true <-> a = b.
Proof. unfold eqb_list. destruct (list_eq_dec Z.eq_dec a b); split; congruence. Qed.

Lemma eqb_list_refl a : eqb_list a a = true.
Proof. now apply eqb_list_spec. Qed.

(* ---- weakest preconditions: m is well defined and P holds of the value it returns ---- *)
Definition wp {A} (m : outcome A) (P : A -> Prop) : Prop :=
  match m with Ok a => P a | Fail => True | UB _ | OutOfFuel => False end.

Lemma wp_ok {A} (m : outcome A) (P : A -> Prop) a : wp m P -> m = Ok a -> P a.
Proof. intros H ->. exact H. Qed.

Lemma wp_defined {A} (m : outcome A) (P : A -> Prop) : wp m P -> defined m.
Proof. destruct m; cbn; auto. Qed.

Lemma wp_bind {A B} (m : outcome A) (f : A -> outcome B) P :
  wp m (fun a => wp (f a) P) -> wp (bind m f) P.
Proof. destruct m; cbn; auto. Qed.

Lemma wp_bind_inv {A B} (m : outcome A) (f : A -> outcome B) P :
  wp (bind m f) P -> wp m (fun a => wp (f a) P).
Proof. destruct m; cbn; auto. Qed.

Lemma wp_mono {A} (m : outcome A) (P Q : A -> Prop) : wp m P -> (forall a, P a -> Q a) -> wp m Q.
Proof. destruct m; cbn; auto. Qed.

Lemma wp_conj {A} (m : outcome A) (P Q : A -> Prop) : wp m P -> wp m Q -> wp m (fun a => P a /\ Q a).
Proof. destruct m; cbn; auto. Qed.

Lemma wp_eq {A} (m : outcome A) (P : A -> Prop) : wp m P -> wp m (fun a => P a /\ m = Ok a).
Proof. destruct m; cbn; auto. Qed.

Lemma wp_intro {A} (m : outcome A) (P : A -> Prop) : defined m -> (forall a, m = Ok a -> P a) -> wp m P.
Proof. destruct m; cbn; auto; contradiction. Qed.

Lemma wp_get l i (P : Z -> Prop) : 0 <= i < len l -> P (at_ l i) -> wp (get l i) P.
Proof. intros H HP. rewrite get_ok by exact H. exact HP. Qed.

Lemma wp_get_range l i j (P : list Z -> Prop) : 0 <= i -> i <= j -> j <= len l -> P (slice l i j) -> wp (get_range l i j) P.
Proof. intros H1 H2 H3 HP. rewrite get_range_ok by assumption. exact HP. Qed.

Lemma wp_set_nth {A} (l : list A) i v (P : list A -> Prop) : 0 <= i < len l -> P (upd l (Z.to_nat i) v) -> wp (set_nth l i v) P.
Proof.
  intros H HP. unfold set_nth. replace ((i <? 0) || (len l <=? i)) with false by lia. exact HP.
Qed.
