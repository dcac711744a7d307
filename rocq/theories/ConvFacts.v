(* Consequences for the names: no reserved characters are substituted, different songs have different names *)
From Coq Require Import String.
From Verif Require Import Base BaseFacts InfoModel InfoSpec InfoProofs WriterModel ConvModel ConvSpec ConvProofs ConvLoop ConvOutputs.

Lemma neutral_clean t : filter is_reserved (neutral t) = [].
Proof.
  induction t as [|c t IH]; [reflexivity|]. unfold neutral in *. cbn [map filter]. rewrite IH.
  destruct (is_reserved c) eqn:E; [reflexivity|]. now rewrite E.
Qed.

Lemma placeholder_plain j number k t : placeholder j number k = Some t -> is_reserved k = false.
Proof.
  unfold placeholder. repeat match goal with |- context [if ?k =? ?v then _ else _] => destruct (Z.eqb_spec k v) as [->|_]; [reflexivity|] end. discriminate.
Qed.

Lemma expand_reserved j number n : forall pat t, (length pat <= n)%nat -> expand j number pat = Some t -> filter is_reserved t = filter is_reserved pat.
Proof.
  induction n as [|n IH]; intros pat t Hn E.
  - destruct pat; [|cbn [length] in Hn; lia]. cbn [expand] in E. assert (t = []) by congruence. now subst t.
  - destruct pat as [|c r]; [cbn [expand] in E; assert (t = []) by congruence; now subst t|].
    cbn [expand length] in *. destruct (Z.eqb_spec c 37) as [->|Nc].
    + destruct r as [|k r]; [discriminate|]. destruct (placeholder j number k) as [u|] eqn:Eu; [|discriminate].
      destruct (expand j number r) as [w|] eqn:Ew; [|discriminate]. assert (t = neutral u ++ w) by congruence. subst t.
      rewrite filter_app, neutral_clean. cbn [app filter length] in *. change (is_reserved 37) with false. rewrite (placeholder_plain _ _ _ _ Eu).
      apply IH; [lia|exact Ew].
    + destruct (expand j number r) as [w|] eqn:Ew; [|discriminate]. cbn [option_map] in E. assert (t = c :: w) by congruence. subst t.
      cbn [filter]. rewrite (IH r w) by (exact Ew || lia). reflexivity.
Qed.

Lemma file_name_reserved j number name : file_name j number = Some name ->
  filter is_reserved name = filter is_reserved (stem (j_pattern j)) ++ filter is_reserved (inherited j) ++ filter is_reserved (dot_ext (j_pattern j)).
Proof.
  unfold file_name. destruct (expand j number (stem (j_pattern j))) as [h|] eqn:E1; [|discriminate].
  destruct (expand j number (dot_ext (j_pattern j))) as [e|] eqn:E2; [|discriminate].
  intros E. assert (name = h ++ inherited j ++ e) by congruence. subst name. rewrite !filter_app.
  rewrite (expand_reserved _ _ _ _ _ (Nat.le_refl _) E1), (expand_reserved _ _ _ _ _ (Nat.le_refl _) E2). reflexivity.
Qed.

Lemma filter_slash l : filter is_slash l = filter is_slash (filter is_reserved l).
Proof.
  induction l as [|c l IH]; [reflexivity|]. cbn [filter]. destruct (is_reserved c) eqn:E; cbn [filter]; [now rewrite IH|].
  assert (F : is_slash c = false). { unfold is_slash. unfold is_reserved, reserved in E. cbn [existsb] in E. lia. }
  now rewrite F.
Qed.

Lemma stem_prefix s : In 46 s -> exists b, s = stem s ++ b.
Proof. intros D. exists (dot_ext s). now apply dot_split. Qed.

Lemma base_name_no_slash s : filter is_slash (base_name s) = [].
Proof.
  unfold base_name. pose proof (take_none is_slash (rev s)) as H. apply Forall_rev in H.
  induction H as [|c l Hc _ IH]; [reflexivity|]. cbn [filter]. now rewrite Hc.
Qed.

(* unless the pattern is ".EXT", its slashes are those of the name *)
Lemma file_name_slashes j number name : proper j -> In 46 (j_pattern j) -> stem (j_pattern j) <> [] -> file_name j number = Some name ->
  filter is_slash name = filter is_slash (j_pattern j).
Proof.
  intros Pj D Hs E. pose proof Pj as (_ & _ & _ & _ & _ & _ & O & _). destruct (our_dots _ O) as [_ D2].
  rewrite (filter_slash name), (file_name_reserved _ _ _ E), !filter_app, <- !filter_slash.
  assert (I : filter is_slash (inherited j) = []).
  { unfold inherited. rewrite eqb_list_false by exact Hs. destruct (is_slash (last (stem (j_pattern j)) 0)); [|reflexivity].
    destruct (stem_prefix _ D2) as (b & Eb). pose proof (base_name_no_slash (j_input j)) as F. rewrite Eb, filter_app in F. apply app_eq_nil in F. apply F. }
  rewrite I. cbn [app]. rewrite <- filter_app. f_equal. symmetry. now apply dot_split.
Qed.

(* ------------------------------------------------------------------ *)
(* different numbers give different names                              *)
Lemma neutral_numeral t v : numeral t v -> neutral t = t.
Proof.
  intros (D & _). induction D as [|c t Hc _ IH]; [reflexivity|]. unfold neutral in *. cbn [map]. rewrite IH.
  assert (E : is_reserved c = false). { unfold is_reserved, reserved. cbn [existsb]. lia. }
  now rewrite E.
Qed.

Lemma placeholder_other j n1 n2 k : k <> 115 -> placeholder j n1 k = placeholder j n2 k.
Proof. intros H. unfold placeholder. now replace (k =? 115) with false by lia. Qed.

Lemma expand_len j ins ext n1 n2 n : len n1 <= len n2 -> forall pat i t1 t2, (length pat <= n)%nat ->
  expand_ins j n1 ins ext pat i = Some t1 -> expand_ins j n2 ins ext pat i = Some t2 ->
  len t1 <= len t2 /\ (numbered pat = true -> len n1 < len n2 -> len t1 < len t2).
Proof.
  intros Hl. induction n as [|n IH]; intros pat i t1 t2 Hn E1 E2.
  - destruct pat; [|cbn [length] in Hn; lia]. cbn [expand_ins] in *. assert (t1 = [] /\ t2 = []) as [-> ->] by (split; congruence). split; [lia|discriminate].
  - destruct pat as [|c r]; [cbn [expand_ins] in *; assert (t1 = [] /\ t2 = []) as [-> ->] by (split; congruence); split; [lia|discriminate]|].
    cbn [expand_ins numbered length] in *. set (pre := if i =? ext then ins else []) in *. clearbody pre. destruct (c =? 37).
    + destruct r as [|k r]; [discriminate|].
      destruct (placeholder j n1 k) as [u1|] eqn:Eu1; [|discriminate]. destruct (placeholder j n2 k) as [u2|] eqn:Eu2; [|discriminate].
      destruct (expand_ins j n1 ins ext r (i + 2)) as [w1|] eqn:Ew1; [|discriminate]. destruct (expand_ins j n2 ins ext r (i + 2)) as [w2|] eqn:Ew2; [|discriminate].
      assert (t1 = pre ++ neutral u1 ++ w1 /\ t2 = pre ++ neutral u2 ++ w2) as [-> ->] by (split; congruence).
      cbn [length] in Hn. destruct (IH r _ w1 w2 ltac:(lia) Ew1 Ew2) as [A B]. rewrite !len_app, !len_neutral.
      destruct (Z.eqb_spec k 115) as [->|Nk].
      * change (placeholder j n1 115) with (Some n1) in Eu1. change (placeholder j n2 115) with (Some n2) in Eu2.
        assert (u1 = n1 /\ u2 = n2) as [-> ->] by (split; congruence). split; [lia|]. intros _ L. lia.
      * rewrite (placeholder_other j n1 n2 k Nk) in Eu1. assert (u1 = u2) by congruence. subst u2. cbn [orb]. split; [lia|]. intros C L. specialize (B C L). lia.
    + destruct (expand_ins j n1 ins ext r (i + 1)) as [w1|] eqn:Ew1; [|discriminate]. destruct (expand_ins j n2 ins ext r (i + 1)) as [w2|] eqn:Ew2; [|discriminate].
      assert (t1 = pre ++ c :: w1 /\ t2 = pre ++ c :: w2) as [-> ->] by (split; congruence).
      destruct (IH r _ w1 w2 ltac:(lia) Ew1 Ew2) as [A B]. rewrite !len_app, !len_cons. split; [lia|]. intros C L. specialize (B C L). lia.
Qed.

Lemma app_same_len (a b c d : list Z) : length a = length b -> a ++ c = b ++ d -> a = b /\ c = d.
Proof.
  revert b. induction a as [|x a IH]; intros [|y b] L E; try discriminate; [now split|]. cbn [app length] in *.
  assert (x = y /\ a ++ c = b ++ d) as [-> E'] by (split; congruence). destruct (IH b ltac:(lia) E') as [-> ->]. now split.
Qed.

Lemma expand_same j ins ext n1 n2 n : len n1 = len n2 -> neutral n1 = n1 -> neutral n2 = n2 -> forall pat i t, (length pat <= n)%nat ->
  expand_ins j n1 ins ext pat i = Some t -> expand_ins j n2 ins ext pat i = Some t -> numbered pat = true -> n1 = n2.
Proof.
  intros Hl N1 N2. induction n as [|n IH]; intros pat i t Hn E1 E2 C.
  - destruct pat; [discriminate|cbn [length] in Hn; lia].
  - destruct pat as [|c r]; [discriminate|].
    cbn [expand_ins numbered length] in *. set (pre := if i =? ext then ins else []) in *. clearbody pre. destruct (c =? 37).
    + destruct r as [|k r]; [discriminate|].
      destruct (placeholder j n1 k) as [u1|] eqn:Eu1; [|discriminate]. destruct (placeholder j n2 k) as [u2|] eqn:Eu2; [|discriminate].
      destruct (expand_ins j n1 ins ext r (i + 2)) as [w1|] eqn:Ew1; [|discriminate]. destruct (expand_ins j n2 ins ext r (i + 2)) as [w2|] eqn:Ew2; [|discriminate].
      assert (EE : pre ++ neutral u1 ++ w1 = pre ++ neutral u2 ++ w2) by congruence. apply app_inv_head in EE.
      cbn [length] in Hn. destruct (Z.eqb_spec k 115) as [->|Nk].
      * change (placeholder j n1 115) with (Some n1) in Eu1. change (placeholder j n2 115) with (Some n2) in Eu2.
        assert (u1 = n1 /\ u2 = n2) as [-> ->] by (split; congruence). rewrite N1, N2 in EE.
        apply app_same_len in EE; [apply EE|]. unfold len in Hl. lia.
      * rewrite (placeholder_other j n1 n2 k Nk) in Eu1. assert (u1 = u2) by congruence. subst u2. apply app_inv_head in EE. subst w2.
        cbn [orb] in C. apply (IH r (i + 2) w1); [lia|assumption..].
    + destruct (expand_ins j n1 ins ext r (i + 1)) as [w1|] eqn:Ew1; [|discriminate]. destruct (expand_ins j n2 ins ext r (i + 1)) as [w2|] eqn:Ew2; [|discriminate].
      assert (EE : pre ++ c :: w1 = pre ++ c :: w2) by congruence. apply app_inv_head in EE. assert (w1 = w2) by congruence. subst w2.
      apply (IH r (i + 1) w1); [lia|assumption..].
Qed.

Lemma file_name_differs j n1 v1 n2 v2 name : proper j -> In 46 (j_pattern j) -> numbered (j_pattern j) = true -> numeral n1 v1 -> numeral n2 v2 ->
  file_name j n1 = Some name -> file_name j n2 = Some name -> v1 = v2.
Proof.
  intros Pj D C H1 H2 E1 E2. destruct (open_split j [] 0 Pj D) as (input & ext & _ & HE & _). rewrite <- HE in E1, E2.
  assert (n1 = n2).
  { destruct (Z.lt_trichotomy (len n1) (len n2)) as [L|[L|L]].
    - destruct (expand_len j (stem input) ext n1 n2 _ ltac:(lia) _ _ _ _ (Nat.le_refl _) E1 E2) as [_ B]. specialize (B C L). lia.
    - eapply (expand_same j (stem input) ext n1 n2 _ L); [eapply neutral_numeral; eassumption|eapply neutral_numeral; eassumption|apply Nat.le_refl|exact E1|exact E2|exact C].
    - destruct (expand_len j (stem input) ext n2 n1 _ ltac:(lia) _ _ _ _ (Nat.le_refl _) E2 E1) as [_ B]. specialize (B C L). lia. }
  subst n2. destruct H1 as (_ & <- & _). now destruct H2 as (_ & <- & _).
Qed.

Lemma all_of_in {A B} (f : A -> option B) l r y : all_of f l = Some r -> In y r -> exists x, In x l /\ f x = Some y.
Proof.
  revert r. induction l as [|x l IH]; intros r E I.
  - cbn [all_of] in E. assert (r = []) by congruence. subst r. destruct I.
  - cbn [all_of] in E. destruct (f x) as [z|] eqn:Ez; [|discriminate]. destruct (all_of f l) as [w|] eqn:Ew; [|discriminate].
    assert (r = z :: w) by congruence. subst r. destruct I as [<-|I]; [exists x; split; [now left|exact Ez]|].
    destruct (IH w eq_refl I) as (x' & I' & E'). exists x'. split; [now right|exact E'].
Qed.

Lemma output_of_name j n number song y : output_of j n number song = Some y -> exists name, y = (name, song) /\ file_name j number = Some name /\ len name < n /\ (to_stdout j = true \/ j_can_write j name = true).
Proof.
  unfold output_of. destruct (file_name j number) as [name|]; [|discriminate].
  destruct ((len name <? n) && (to_stdout j || j_can_write j name)) eqn:E; [|discriminate]. intros X. exists name.
  apply andb_prop in E. destruct E as [E1 E2]. apply orb_prop in E2. repeat split; [congruence|lia|exact E2].
Qed.

Lemma names_differ j n (number : Z -> list Z) songs l : proper j -> In 46 (j_pattern j) -> numbered (j_pattern j) = true ->
  (forall s, In s songs -> numeral (number s) (s + 1)) -> NoDup songs ->
  all_of (fun s => output_of j n (number s) s) songs = Some l -> NoDup (map fst l).
Proof.
  intros Pj D C Hn. revert l. induction songs as [|s songs IH]; intros l Nd E.
  - cbn [all_of] in E. assert (l = []) by congruence. subst l. constructor.
  - cbn [all_of] in E. destruct (output_of j n (number s) s) as [y|] eqn:Ey; [|discriminate].
    destruct (all_of _ songs) as [w|] eqn:Ew; [|discriminate]. assert (l = y :: w) by congruence. subst l.
    inversion Nd; subst. cbn [map]. constructor; [|apply IH; try assumption; [intros; apply Hn; now right|reflexivity]].
    intros I. apply in_map_iff in I. destruct I as (z & Ez & I).
    destruct (all_of_in _ _ _ _ Ew I) as (s' & Is & Es). destruct (output_of_name _ _ _ _ _ Ey) as (a & -> & A & _).
    destruct (output_of_name _ _ _ _ _ Es) as (b & -> & B & _). cbn [fst] in Ez. subst b.
    assert (s + 1 = s' + 1).
    { apply (file_name_differs j (number s) (s + 1) (number s') (s' + 1) a); try assumption; apply Hn; [now left|now right]. }
    assert (s = s') by lia. now subst s'.
Qed.
