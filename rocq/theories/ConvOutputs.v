(* open_output_file and the loop around it against ConvSpec.v *)
From Coq Require Import String.
From Verif Require Import Base BaseFacts InfoModel InfoSpec InfoProofs WriterModel WriterProofs ConvModel ConvSpec ConvProofs ConvLoop.

Lemma text_cstr t r : text t -> cstr (t ++ 0 :: r) = t.
Proof. intros H. induction H as [|c t H _ IH]; cbn [app cstr]; [reflexivity|]. apply Z.eqb_neq in H. now rewrite H, IH. Qed.

Lemma text_app a b : text a -> text b -> text (a ++ b).
Proof. intros A B. apply Forall_app. now split. Qed.

Lemma text_neutral t : text t -> text (neutral t).
Proof. unfold text, neutral. intros H. rewrite Forall_forall in *. intros c Hc. apply in_map_iff in Hc. destruct Hc as (x & <- & Hx). destruct (is_reserved x); [lia|]. now apply H. Qed.

Lemma numeral_text t v : numeral t v -> text t.
Proof. intros (D & _). unfold text. eapply Forall_impl; [|exact D]. cbn. lia. Qed.

Lemma placeholder_text j number k t : proper j -> text number -> placeholder j number k = Some t -> text t.
Proof.
  intros (_ & _ & A & B & C & D & _) Hn. unfold placeholder.
  destruct (k =? 97); [congruence|]. destruct (k =? 110); [congruence|]. destruct (k =? 100); [congruence|].
  destruct (k =? 101).
  { destruct (j_ext j); [congruence|]. intros E. assert (t = str "unknown") by congruence. subst t. vm_compute. repeat constructor; discriminate. }
  destruct (k =? 115); [congruence|]. destruct (k =? 37); [|discriminate]. intros E. assert (t = [37]) by congruence. subst t. repeat constructor. discriminate.
Qed.

Lemma expand_text j number : proper j -> text number -> forall n pat t, (length pat <= n)%nat -> text pat -> expand j number pat = Some t -> text t.
Proof.
  intros Pj Hn. induction n as [|n IH]; intros pat t Hl Hp E.
  - destruct pat; [|cbn [length] in Hl; lia]. cbn [expand] in E. assert (t = []) by congruence. subst t. constructor.
  - destruct pat as [|c r]; [cbn [expand] in E; assert (t = []) by congruence; subst t; constructor|].
    cbn [expand length] in *. pose proof (Forall_inv Hp) as H1. pose proof (Forall_inv_tail Hp) as H2. destruct (c =? 37).
    + destruct r as [|k r]; [discriminate|]. destruct (placeholder j number k) as [u|] eqn:Eu; [|discriminate].
      destruct (expand j number r) as [w|] eqn:Ew; [|discriminate]. assert (t = neutral u ++ w) by congruence. subst t.
      apply text_app; [apply text_neutral; apply (placeholder_text j number k); [exact Pj|exact Hn|exact Eu]|]. cbn [length] in Hl. eapply IH; [|exact (Forall_inv_tail H2)|exact Ew]. lia.
    + destruct (expand j number r) as [w|] eqn:Ew; [|discriminate]. cbn [option_map] in E. assert (t = c :: w) by congruence. subst t.
      constructor; [exact H1|]. eapply IH; [|exact H2|exact Ew]. lia.
Qed.

Lemma stem_text s : In 46 s -> text s -> text (stem s).
Proof. intros D H. rewrite (dot_split s D) in H. apply Forall_app in H. apply H. Qed.
Lemma dot_ext_text s : In 46 s -> text s -> text (dot_ext s).
Proof. intros D H. rewrite (dot_split s D) in H. apply Forall_app in H. apply H. Qed.

Lemma base_name_suffix s : exists a, s = a ++ base_name s.
Proof.
  destruct (slash_cases s) as [H|(a & c & b & -> & H1 & H2)].
  - exists []. now rewrite base_name_none.
  - exists (a ++ [c]). rewrite base_name_app by assumption. now rewrite <- app_assoc.
Qed.

Lemma base_name_text s : text s -> text (base_name s).
Proof. intros H. destruct (base_name_suffix s) as (a & E). rewrite E in H. apply Forall_app in H. apply H. Qed.

Lemma inherited_text j : proper j -> text (inherited j).
Proof.
  intros (_ & T & _ & _ & _ & _ & O & _). destruct (our_dots _ O) as [D1 D2]. unfold inherited. destruct (eqb_list _ _); [now apply stem_text|].
  destruct (is_slash _); [|constructor]. apply stem_text; [exact D2|]. now apply base_name_text.
Qed.

Lemma file_name_text j number t : proper j -> In 46 (j_pattern j) -> text number -> file_name j number = Some t -> text t.
Proof.
  intros Pj D Hn. unfold file_name. pose proof (proj1 Pj) as Tp.
  destruct (expand j number (stem (j_pattern j))) as [h|] eqn:E1; [|discriminate].
  destruct (expand j number (dot_ext (j_pattern j))) as [e|] eqn:E2; [|discriminate].
  intros E. assert (t = h ++ inherited j ++ e) by congruence. subst t.
  apply text_app; [|apply text_app].
  - apply (expand_text j number Pj Hn _ (stem (j_pattern j)) h (Nat.le_refl _)); [now apply stem_text|exact E1].
  - now apply inherited_text.
  - apply (expand_text j number Pj Hn _ (dot_ext (j_pattern j)) e (Nat.le_refl _)); [now apply dot_ext_text|exact E2].
Qed.

(* ------------------------------------------------------------------ *)
(* one call                                                            *)
Definition finish (j : job) (r : naming * bool) : outcome (list Z * Z * option bool) :=
  let '(s, go) := r in
  if negb go then Ok (n_file s, n_song s, None)
  else
    f <- set_nth (n_file s) (n_ptr s) 0 ;;
    let s := mkNaming f (n_ptr s) (n_per_song s) (n_song s) in
    if negb (n_per_song s) && (0 <=? n_song s) then Ok (n_file s, n_song s, None)
    else
      song <-
        (if n_per_song s then Ok (n_song s)
         else if j_arg_song j <? 0 then Ok (j_default j)
         else if j_songs j <=? j_arg_song j then Fail
         else Ok (j_arg_song j)) ;;
      if to_stdout j then Ok (n_file s, song, Some true)
      else if j_can_write j (cstr (n_file s)) then Ok (n_file s, song, Some false)
      else Fail.

Lemma eqb_list_true a b : eqb_list a b = true <-> a = b.
Proof. unfold eqb_list. destruct (list_eq_dec Z.eq_dec a b); split; congruence. Qed.

Lemma eqb_list_false a b : a <> b -> eqb_list a b = false.
Proof. unfold eqb_list. destruct (list_eq_dec Z.eq_dec a b); congruence. Qed.

Lemma open_split j f cur : proper j -> In 46 (j_pattern j) ->
  exists input ext, (ext = -1 \/ In 46 input) /\
    (forall number, expand_ins j number (stem input) ext (j_pattern j) 0 = file_name j number) /\
    open_output_file j f cur = bind (expand_loop j input ext (j_pattern j) 0 (mkNaming f 0 false cur)) (finish j).
Proof.
  intros Pj D. pose proof Pj as (_ & T & _ & _ & _ & _ & O & _). destruct (our_dots _ O) as [D1 D2].
  assert (EX : forall number ins, expand_ins j number ins (len (stem (j_pattern j))) (j_pattern j) 0 =
             match expand j number (stem (j_pattern j)), expand j number (dot_ext (j_pattern j)) with Some h, Some e => Some (h ++ ins ++ e) | _, _ => None end).
  { intros number ins. rewrite (dot_split _ D) at 2. change (dot_ext (j_pattern j)) with (46 :: tl (dot_ext (j_pattern j))).
    apply (expand_ins_at j number ins _ (length (stem (j_pattern j))) _ 0). lia. }
  unfold open_output_file. rewrite (last_dot _ D). unfold file_name, inherited.
  destruct (stem (j_pattern j)) as [|c0 h0] eqn:Es.
  - change (len (@nil Z)) with 0 in *. change (0 =? 0) with true. cbn iota. cbn [bind]. rewrite (proj2 (eqb_list_true [] []) eq_refl).
    exists (j_input j), 0. split; [now right|]. split; [intros number; apply EX|].
    assert (F : to_stdout j = false). { unfold to_stdout. rewrite Es. apply eqb_list_false. discriminate. }
    unfold finish. rewrite F. reflexivity.
  - set (h := c0 :: h0) in *. assert (Lh : 1 <= len h) by (unfold h; rewrite len_cons; pose proof (len_nonneg h0); lia).
    replace (len h =? 0) with false by lia. rewrite (eqb_list_false h []) by discriminate.
    assert (G : get (j_pattern j) (len h - 1) = Ok (last h 0)).
    { rewrite (dot_split _ D), Es. fold h. rewrite get_ok by (rewrite len_app; pose proof (len_nonneg (dot_ext (j_pattern j))); lia). f_equal.
      destruct (exists_last (l := h) ltac:(discriminate)) as (a & x & E). rewrite E. rewrite last_last.
      unfold at_. rewrite len_app. change (len [x]) with 1. replace (Z.to_nat (len a + 1 - 1)) with (length a) by (unfold len; lia).
      rewrite <- app_assoc. rewrite app_nth2 by lia. replace (length a - length a)%nat with 0%nat by lia. reflexivity. }
    rewrite G. cbn [bind]. change ((last h 0 =? 47) || (last h 0 =? 92)) with (is_slash (last h 0)).
    destruct (is_slash (last h 0)) eqn:Sl; cbn [bind].
    + exists (base_name (j_input j)), (len h). split; [now right|]. split.
      { intros number. apply EX. }
      rewrite past_slashes_base.
      assert (F : to_stdout j = false). { unfold to_stdout. rewrite Es. apply eqb_list_false. intros E. rewrite E in Sl. discriminate. }
      unfold finish. rewrite F. reflexivity.
    + assert (G0 : get (j_pattern j) 0 = Ok c0).
      { rewrite (dot_split _ D), Es. reflexivity. }
      rewrite G0. cbn [bind]. exists (j_input j), (-1). split; [now left|]. split.
      { intros number. rewrite (expand_ins_none _ _ _ (length (j_pattern j))) by lia. rewrite (dot_split _ D) at 1. rewrite Es. fold h. change (dot_ext (j_pattern j)) with (46 :: tl (dot_ext (j_pattern j))). rewrite expand_split. reflexivity. }
      assert (F : (len h =? 1) && (c0 =? 45) = to_stdout j).
      { unfold to_stdout. rewrite Es. unfold h. destruct h0 as [|c1 h1].
        - destruct (Z.eqb_spec c0 45) as [->|N]; [symmetry; now apply eqb_list_true|]. rewrite eqb_list_false by congruence. apply andb_false_r.
        - rewrite eqb_list_false by discriminate. rewrite !len_cons. pose proof (len_nonneg h1). lia. }
      unfold finish. rewrite <- F. reflexivity.
Qed.

(* the name is finished *)
Lemma finish_ok j N s t : begun N s t -> len t < N -> text t ->
  (n_per_song s = true \/ n_song s < 0) ->
  exists f, len f = N /\ cstr f = t /\
    finish j (s, true) =
      (song <-
        (if n_per_song s then Ok (n_song s)
         else if j_arg_song j <? 0 then Ok (j_default j)
         else if j_songs j <=? j_arg_song j then Fail
         else Ok (j_arg_song j)) ;;
       if to_stdout j then Ok (f, song, Some true)
       else if j_can_write j t then Ok (f, song, Some false)
       else Fail).
Proof.
  intros (P & r & F & L) H T C. unfold finish. cbn [negb]. rewrite P, F.
  destruct r as [|x r]; [rewrite app_nil_r in L; lia|].
  unfold set_nth. rewrite L. replace ((len t <? 0) || (N <=? len t)) with false by (pose proof (len_nonneg t); lia). cbn [bind n_per_song n_song n_file].
  replace (Z.to_nat (len t)) with (length t) by (unfold len; lia). rewrite upd_app. exists (t ++ 0 :: r). split; [rewrite <- L, !len_app, !len_cons; reflexivity|]. split; [now apply text_cstr|].
  replace (negb (n_per_song s) && (0 <=? n_song s)) with false by (destruct C as [->|C]; [reflexivity|destruct (n_per_song s); cbn [negb andb]; lia]).
  rewrite text_cstr by exact T. reflexivity.
Qed.

Lemma finish_stop j N s t : begun N s t -> len t < N -> n_per_song s = false -> 0 <= n_song s ->
  exists f, len f = N /\ finish j (s, true) = Ok (f, n_song s, None).
Proof.
  intros (P & r & F & L) H C D. unfold finish. cbn [negb]. rewrite P, F.
  unfold set_nth. rewrite L. replace ((len t <? 0) || (N <=? len t)) with false by (pose proof (len_nonneg t); lia). cbn [bind n_per_song n_song n_file].
  rewrite C. replace (0 <=? n_song s) with true by lia. cbn [negb andb]. eexists. split; [|reflexivity].
  destruct r as [|x r]; [rewrite app_nil_r in L; lia|]. replace (Z.to_nat (len t)) with (length t) by (unfold len; lia). rewrite upd_app, <- L, !len_app, !len_cons. reflexivity.
Qed.

Lemma start_begun f N song : len f = N -> begun N (mkNaming f 0 false song) [].
Proof. intros H. split; [reflexivity|]. exists f. now split. Qed.

Section Open.
Variables (j : job) (N : Z).
Hypothesis Pj : proper j.
Hypothesis D : In 46 (j_pattern j).
Hypothesis HN : 0 < N.

(* a pattern without a number: the first call *)
Lemma open_single f number cur : len f = N -> numbered (j_pattern j) = false -> cur < 0 -> text number ->
  open_output_file j f cur = Fail /\ (forall song, requested j = Some [song] -> output_of j N number song = None) \/
  exists f' song name b, open_output_file j f cur = Ok (f', song, Some b) /\ len f' = N /\ requested j = Some [song] /\
    output_of j N number song = Some (name, song) /\ cstr f' = name /\ file_name j number = Some name /\ len name < N.
Proof.
  intros Lf C Hc Tn. destruct (open_split j f cur Pj D) as (input & ext & Hi & HE & ->).
  pose proof (run_free j input ext N Hi number (length (j_pattern j)) (j_pattern j) 0 (mkNaming f 0 false cur) [] (Nat.le_refl _) ltac:(lia) (start_begun f N cur Lf) HN (or_intror C)) as R.
  rewrite HE in R. unfold arrives in R. cbn [app n_per_song n_song] in R. unfold output_of, requested. rewrite C.
  destruct (file_name j number) as [t|] eqn:En.
  - pose proof (file_name_text j number t Pj D Tn En) as Tt. destruct (len t <? N) eqn:El.
    + destruct R as (s & -> & B & P1 & S1). cbn [bind].
      destruct (finish_ok j N s t B ltac:(lia) Tt ltac:(right; lia)) as (f' & L' & Cs & ->). rewrite P1. cbn [andb].
      destruct (j_arg_song j <? 0) eqn:Ea; cbn [bind].
      * destruct (to_stdout j); cbn [orb]; [right; exists f', (j_default j), t, true; repeat split; try reflexivity; try assumption; lia|].
        destruct (j_can_write j t); [right; exists f', (j_default j), t, false; repeat split; try reflexivity; try assumption; lia|]. left. now split.
      * destruct (j_songs j <=? j_arg_song j) eqn:Eb; cbn [bind].
        { left. split; [reflexivity|]. replace (j_arg_song j <? j_songs j) with false by lia. discriminate. }
        replace (j_arg_song j <? j_songs j) with true by lia.
        destruct (to_stdout j); cbn [orb]; [right; exists f', (j_arg_song j), t, true; repeat split; try reflexivity; try assumption; lia|].
        destruct (j_can_write j t); [right; exists f', (j_arg_song j), t, false; repeat split; try reflexivity; try assumption; lia|]. left. now split.
    + rewrite R. left. now split.
  - rewrite R. left. now split.
Qed.

(* and any later one *)
Lemma open_single_stop f number name cur : len f = N -> numbered (j_pattern j) = false -> 0 <= cur ->
  file_name j number = Some name -> len name < N -> exists f', open_output_file j f cur = Ok (f', cur, None).
Proof.
  intros Lf C Hc En Ln. destruct (open_split j f cur Pj D) as (input & ext & Hi & HE & ->).
  pose proof (run_free j input ext N Hi number (length (j_pattern j)) (j_pattern j) 0 (mkNaming f 0 false cur) [] (Nat.le_refl _) ltac:(lia) (start_begun f N cur Lf) HN (or_intror C)) as R.
  rewrite HE, En in R. unfold arrives in R. cbn [app n_per_song n_song] in R. replace (len name <? N) with true in R by lia.
  destruct R as (s & -> & B & P1 & S1). cbn [bind]. destruct (finish_stop j N s name B Ln P1 ltac:(lia)) as (f' & _ & ->). exists f'. now rewrite S1.
Qed.

(* a pattern with a number *)
Lemma open_number f cur : len f = N -> numbered (j_pattern j) = true -> -1 <= cur < 9999999998 ->
  if permitted j then
    if j_songs j <=? cur + 1 then
      forall number t, file_name j number = Some t -> len t < N -> exists f' song, open_output_file j f cur = Ok (f', song, None)
    else
      match output_of j N (print_int (cur + 1 + 1)) (cur + 1) with
      | Some (name, _) => exists f' b, open_output_file j f cur = Ok (f', cur + 1, Some b) /\ len f' = N /\ cstr f' = name
      | None => open_output_file j f cur = Fail
      end
  else open_output_file j f cur = Fail.
Proof.
  intros Lf C Hc. destruct (open_split j f cur Pj D) as (input & ext & Hi & HE & ->).
  pose proof (run_counts j input ext N Hi (length (j_pattern j)) (j_pattern j) 0 (mkNaming f 0 false cur) [] (Nat.le_refl _) ltac:(lia) (start_begun f N cur Lf) HN eq_refl C) as R.
  unfold counts in R. cbn [app n_song] in R. destruct (permitted j); [|now rewrite R].
  destruct (j_songs j <=? cur + 1).
  - intros number t En Ht. destruct (R number t) as (s & -> & _); [now rewrite HE|exact Ht|]. cbn [bind finish negb]. eauto.
  - set (number := print_int (cur + 1 + 1)) in *. rewrite HE in R. unfold arrives in R. cbn [app] in R. unfold output_of.
    assert (Tn : text number). { eapply numeral_text. apply print_numeral. change (10 ^ 10) with 10000000000. lia. }
    destruct (file_name j number) as [t|] eqn:En; [|now rewrite R].
    pose proof (file_name_text j number t Pj D Tn En) as Tt.
    destruct (len t <? N) eqn:El; [|now rewrite R]. destruct R as (s & -> & B & P1 & S1). cbn [bind andb].
    destruct (finish_ok j N s t B ltac:(lia) Tt ltac:(left; exact P1)) as (f' & L' & Cs & ->). rewrite P1. cbn [bind]. rewrite S1.
    destruct (to_stdout j); cbn [orb]; [eauto|]. destruct (j_can_write j t); [eauto|reflexivity].
Qed.

Lemma count_loop k : forall cur f n, len f = N -> numbered (j_pattern j) = true -> permitted j = true -> -1 <= cur ->
  cur + 1 + Z.of_nat k = j_songs j -> (k < n)%nat -> j_songs j <= 32 ->
  (cur = -1 -> (0 < k)%nat) ->
  (0 <= cur -> exists number t, file_name j number = Some t /\ len t < N) ->
  outputs_loop n j f cur =
    match all_of (fun s => output_of j N (print_int (s + 1)) s) (map Z.of_nat (seq (Z.to_nat (cur + 1)) k)) with
    | Some l => Ok l
    | None => Fail
    end.
Proof.
  induction k as [|k IH]; intros cur f n Lf C P Hc Hk Hn H32 H0 Hprev.
  - destruct n as [|n]; [lia|]. cbn [outputs_loop seq map all_of]. pose proof (open_number f cur Lf C ltac:(lia)) as O. rewrite P in O.
    replace (j_songs j <=? cur + 1) with true in O by lia. destruct Hprev as (number & t & E1 & E2); [lia|].
    destruct (O number t E1 E2) as (f' & song & ->). reflexivity.
  - destruct n as [|n]; [lia|]. cbn [outputs_loop seq map all_of]. pose proof (open_number f cur Lf C ltac:(lia)) as O. rewrite P in O.
    replace (j_songs j <=? cur + 1) with false in O by lia. rewrite Z2Nat.id by lia.
    destruct (output_of j N (print_int (cur + 1 + 1)) (cur + 1)) as [[name sg]|] eqn:Eo; [|now rewrite O].
    destruct O as (f' & b & -> & L' & Cs). cbn [bind].
    assert (En : file_name j (print_int (cur + 1 + 1)) = Some name /\ len name < N /\ sg = cur + 1).
    { unfold output_of in Eo. destruct (file_name j (print_int (cur + 1 + 1))) as [w|]; [|discriminate].
      destruct ((len w <? N) && (to_stdout j || j_can_write j w)) eqn:E; [|discriminate]. assert (w = name /\ sg = cur + 1) as [-> ->] by (split; congruence).
      repeat split. apply andb_prop in E. lia. }
    destruct En as (En & Ln & ->).
    rewrite (IH (cur + 1) f' n L' C P ltac:(lia) ltac:(lia) ltac:(lia) H32 ltac:(lia)) by (intros _; eauto).
    replace (Z.to_nat (cur + 1 + 1)) with (S (Z.to_nat (cur + 1))) by lia.
    destruct (all_of _ _) as [l|]; cbn [bind]; [|reflexivity]. now rewrite Cs.
Qed.
End Open.

Lemma all_of_ext {A B} (f g : A -> option B) l : (forall x, In x l -> f x = g x) -> all_of f l = all_of g l.
Proof.
  induction l as [|x r IH]; intros H; [reflexivity|]. cbn [all_of]. rewrite (H x) by now left. rewrite IH; [reflexivity|].
  intros y Hy. apply H. now right.
Qed.

Lemma outputs_ok j f number : proper j -> 0 < len f -> (forall s, text (number s)) ->
  (forall s, 0 <= s < j_songs j -> numeral (number s) (s + 1)) ->
  outputs j f =
    if existsb (Z.eqb 46) (j_pattern j) then
      match requested j with
      | None => Fail
      | Some songs =>
        match all_of (fun s => output_of j (len f) (number s) s) songs with
        | None => Fail
        | Some l => Ok l
        end
      end
    else Fail.
Proof.
  intros Pj HN Tn Hn. unfold outputs. destruct (existsb (Z.eqb 46) (j_pattern j)) eqn:Ed.
  2:{ assert (X : last_index 46 (j_pattern j) = None); [|now rewrite X]. apply last_index_none. intros I.
      assert (Y : existsb (Z.eqb 46) (j_pattern j) = true) by (apply existsb_exists; exists 46; split; [exact I|reflexivity]). congruence. }
  assert (D : In 46 (j_pattern j)). { apply existsb_exists in Ed. destruct Ed as (x & I & E). apply Z.eqb_eq in E. now subst x. }
  rewrite (last_dot _ D). pose proof Pj as (_ & _ & _ & _ & _ & _ & _ & Hs & Hd).
  destruct (numbered (j_pattern j)) eqn:C.
  - unfold requested. rewrite C. change (j_allow j && (j_arg_song j <? 0)) with (permitted j). destruct (permitted j) eqn:P.
    + rewrite (count_loop j (len f) Pj D HN (Z.to_nat (j_songs j)) (-1) f) by (try lia; try reflexivity; assumption).
      change (Z.to_nat (-1 + 1)) with 0%nat. rewrite (all_of_ext _ (fun s => output_of j (len f) (number s) s)).
      { destruct (all_of _ _); reflexivity. }
      intros s I. apply in_map_iff in I. destruct I as (m & <- & I). apply in_seq in I. f_equal.
      eapply numeral_same; [apply print_numeral; change (10 ^ 10) with 10000000000; lia|]. apply Hn. lia.
    + pose proof (open_number j (len f) Pj D HN f (-1) eq_refl C ltac:(lia)) as O. rewrite P in O.
      replace (Z.to_nat (j_songs j) + 2)%nat with (S (Z.to_nat (j_songs j) + 1)) by lia. cbn [outputs_loop]. rewrite O. reflexivity.
  - replace (Z.to_nat (j_songs j) + 2)%nat with (S (S (Z.to_nat (j_songs j)))) by lia. cbn [outputs_loop].
    assert (RQ : requested j = None \/ exists song, requested j = Some [song] /\ 0 <= song).
    { unfold requested. rewrite C. destruct (j_arg_song j <? 0) eqn:E; [right; eauto|]. destruct (j_arg_song j <? j_songs j); [right; eexists; split; [reflexivity|lia]|now left]. }
    set (num := match requested j with Some (song :: _) => number song | _ => number 0 end).
    assert (T : text num) by (unfold num; destruct (requested j) as [[|? ?]|]; apply Tn).
    destruct (open_single j (len f) Pj D HN f num (-1) eq_refl C ltac:(lia) T) as [[-> X]|(f' & song & name & b & -> & L' & RS & Eo & Cs & En & Ln)].
    + cbn [bind]. destruct RQ as [->|(song & RS & _)]; [reflexivity|]. specialize (X _ RS). unfold num in X. rewrite RS in *. cbn [all_of]. now rewrite X.
    + cbn [bind]. destruct RQ as [R|(song' & R & Hsong)]; [congruence|]. assert (song' = song) by congruence. subst song'.
      destruct (open_single_stop j (len f) Pj D HN f' num name song L' C Hsong En Ln) as (f2 & ->). cbn [bind].
      unfold num in Eo. rewrite RS in *. cbn [all_of]. rewrite Eo. now rewrite Cs.
Qed.
