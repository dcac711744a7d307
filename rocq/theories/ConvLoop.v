(* The loops of open_output_file against ConvSpec.v *)
From Coq Require Import String.
From Verif Require Import Base BaseFacts InfoModel WriterModel WriterProofs ConvModel ConvSpec ConvProofs.

(* the name begun in the buffer of N characters is out *)
Definition begun (N : Z) (s : naming) (out : list Z) : Prop :=
  n_ptr s = len out /\ exists r, n_file s = out ++ r /\ len (out ++ r) = N.

Definition lands (m : outcome naming) (N : Z) (t : list Z) (per : bool) (song : Z) : Prop :=
  if len t <? N then exists s', m = Ok s' /\ begun N s' t /\ n_per_song s' = per /\ n_song s' = song else m = Fail.

Lemma begun_len N s out : begun N s out -> len (n_file s) = N.
Proof. intros (_ & r & -> & H). exact H. Qed.

Lemma tag_char_neutral t : map tag_char t = neutral t.
Proof.
  unfold neutral. apply map_ext. intros c. unfold tag_char, is_reserved, reserved. cbn [existsb].
  rewrite orb_false_r, !orb_assoc. reflexivity.
Qed.

Lemma upd_app (l : list Z) x r v : upd (l ++ x :: r) (length l) v = l ++ v :: r.
Proof. induction l as [|a l IH]; cbn [app length upd]; [reflexivity|]. now rewrite IH. Qed.

Lemma store_lands N s out c : begun N s out -> len out < N -> lands (store s c) N (out ++ [c]) (n_per_song s) (n_song s).
Proof.
  intros B H. unfold lands, store. rewrite (begun_len _ _ _ B). destruct B as (P & r & F & L).
  rewrite P, len_app. change (len [c]) with 1. destruct (len out + 1 <? N) eqn:E.
  - replace (N - 1 <=? len out) with false by lia. rewrite F. unfold set_nth. rewrite L.
    replace ((len out <? 0) || (N <=? len out)) with false by (pose proof (len_nonneg out); lia). cbn [bind].
    eexists. split; [reflexivity|]. cbn [n_ptr n_file n_per_song n_song]. split; [|split; reflexivity].
    split; [rewrite len_app; reflexivity|]. unfold len at 1. rewrite Nat2Z.id.
    destruct r as [|x r]; [rewrite app_nil_r in L; lia|]. rewrite upd_app. exists r. split; [now rewrite <- app_assoc|].
    rewrite len_app, len_cons in L. rewrite !len_app. change (len [c]) with 1. lia.
  - replace (N - 1 <=? len out) with true by lia. reflexivity.
Qed.

Lemma len_neutral t : len (neutral t) = len t.
Proof. unfold neutral, len. now rewrite map_length. Qed.

Lemma store_tag_lands N tag : forall s out, begun N s out -> len out < N ->
  lands (store_tag s tag) N (out ++ neutral tag) (n_per_song s) (n_song s).
Proof.
  rewrite <- tag_char_neutral. induction tag as [|c r IH]; intros s out B H; cbn [store_tag map].
  - rewrite app_nil_r. unfold lands. replace (len out <? N) with true by lia. exists s. now repeat split; try apply B.
  - pose proof (store_lands N s out (tag_char c) B H) as L. unfold lands in L.
    destruct (len (out ++ [tag_char c]) <? N) eqn:E.
    + destruct L as (s' & -> & B' & <- & <-). cbn [bind]. replace (out ++ tag_char c :: map tag_char r) with ((out ++ [tag_char c]) ++ map tag_char r) by now rewrite <- app_assoc.
      apply IH; [exact B'|lia].
    + rewrite L. cbn [bind]. unfold lands. replace (_ <? N) with false; [reflexivity|].
      rewrite len_app in *. rewrite len_cons. change (len [tag_char c]) with 1 in E. pose proof (len_nonneg (map tag_char r)). lia.
Qed.

Lemma insert_lands N s out input : In 46 input -> begun N s out -> len out < N ->
  lands (insert_input s input) N (out ++ stem input) (n_per_song s) (n_song s).
Proof.
  intros D B H. unfold lands, insert_input. rewrite (last_dot _ D), (begun_len _ _ _ B). destruct B as (P & r & F & L).
  rewrite P, len_app. pose proof (len_nonneg (stem input)) as S. pose proof (len_nonneg out) as S'. destruct (len out + len (stem input) <? N) eqn:E.
  - replace (N <=? len out + len (stem input)) with false by lia.
    assert (EI : len input = len (stem input) + len (dot_ext input)) by (rewrite (dot_split _ D) at 1; apply len_app).
    pose proof (len_nonneg (dot_ext input)) as S2.
    assert (G : get_range input 0 (len (stem input)) = Ok (stem input)).
    { unfold get_range. replace (len (stem input) - 0 <? 0) with false by lia.
      replace ((0 <? 0) || (len input <? len (stem input))) with false by lia. f_equal. unfold slice.
      replace (len (stem input) - 0) with (len (stem input)) by lia. change (Z.to_nat 0) with 0%nat. rewrite skipn_O.
      rewrite (dot_split _ D) at 2. unfold len. rewrite Nat2Z.id. apply firstn_app_exact. reflexivity. }
    rewrite G. cbn [bind]. rewrite F. rewrite put_range_ok by lia. cbn [bind].
    eexists. split; [reflexivity|]. cbn [n_ptr n_file n_per_song n_song]. split; [|split; reflexivity].
    split; [now rewrite len_app|]. exists (skipn (Z.to_nat (len (stem input))) r). 
    rewrite len_app in L.
    split.
    + unfold splice. rewrite <- app_assoc. unfold len at 1. rewrite Nat2Z.id, firstn_app_exact by reflexivity. f_equal. f_equal.
      replace (Z.to_nat (len out + len (stem input))) with (length out + Z.to_nat (len (stem input)))%nat by (unfold len; lia).
      rewrite skipn_app, skipn_all2 by lia. cbn [app].
      replace (length out + Z.to_nat (len (stem input)) - length out)%nat with (Z.to_nat (len (stem input))) by (clear; lia). reflexivity.
    + rewrite !len_app. unfold len in *. rewrite skipn_length. clear - L E. lia.
  - replace (N <=? len out + len (stem input)) with true by lia. reflexivity.
Qed.

(* the expansion with ins inserted at index ext *)
Fixpoint expand_ins (j : job) (number ins : list Z) (ext : Z) (pat : list Z) (i : Z) : option (list Z) :=
  match pat with
  | [] => Some []
  | c :: r =>
    if c =? 37 then
      match r with
      | [] => None
      | k :: r =>
        match placeholder j number k, expand_ins j number ins ext r (i + 2) with
        | Some t, Some u => Some ((if i =? ext then ins else []) ++ neutral t ++ u)
        | _, _ => None
        end
      end
    else match expand_ins j number ins ext r (i + 1) with
         | Some u => Some ((if i =? ext then ins else []) ++ c :: u)
         | None => None
         end
  end.

(* the outcome of the loop when it runs to the end of the pattern *)
Definition arrives (m : outcome (naming * bool)) (N : Z) (t : option (list Z)) (per : bool) (song : Z) (out : list Z) : Prop :=
  match t with
  | None => m = Fail
  | Some t => if len (out ++ t) <? N then exists s', m = Ok (s', true) /\ begun N s' (out ++ t) /\ n_per_song s' = per /\ n_song s' = song else m = Fail
  end.

Lemma arrives_app m N t per song out a :
  arrives m N t per song (out ++ a) -> arrives m N (option_map (app a) t) per song out.
Proof. unfold arrives. destruct t as [t|]; cbn [option_map]; [|tauto]. now rewrite <- app_assoc. Qed.

Lemma arrives_step N (m : outcome naming) (k : naming -> outcome (naming * bool)) t per song per' song' out a :
  lands m N (out ++ a) per song ->
  (forall s, begun N s (out ++ a) -> len (out ++ a) < N -> n_per_song s = per -> n_song s = song -> arrives (k s) N t per' song' (out ++ a)) ->
  arrives (bind m k) N (option_map (app a) t) per' song' out.
Proof.
  unfold lands. intros L K. destruct (len (out ++ a) <? N) eqn:E.
  - destruct L as (s & -> & B & H1 & H2). cbn [bind]. apply arrives_app. apply K; try assumption. lia.
  - rewrite L. cbn [bind]. unfold arrives. destruct t as [t|]; cbn [option_map]; [|reflexivity].
    replace (_ <? N) with false; [reflexivity|]. rewrite app_assoc, len_app. pose proof (len_nonneg t). lia.
Qed.

Section Run.
Variables (j : job) (input : list Z) (ext N : Z).
Hypothesis Hins : ext = -1 \/ In 46 input.
Let ins := stem input.

Lemma head_lands s out i : 0 <= i -> begun N s out -> len out < N ->
  lands (if i =? ext then insert_input s input else Ok s) N (out ++ (if i =? ext then ins else [])) (n_per_song s) (n_song s).
Proof.
  intros Hi B H. destruct (i =? ext) eqn:E.
  - destruct Hins as [X|D]; [lia|]. now apply insert_lands.
  - rewrite app_nil_r. unfold lands. replace (len out <? N) with true by lia. exists s. now repeat split; try apply B.
Qed.

Lemma choose_free s k number : (n_per_song s = true /\ number = print_int (n_song s + 1)) \/ k <> 115 ->
  choose_tag j s k = match placeholder j number k with Some t => Ok (s, Some t) | None => Fail end.
Proof.
  intros H. unfold choose_tag, placeholder.
  destruct (k =? 97); [reflexivity|]. destruct (k =? 110); [reflexivity|]. destruct (k =? 100); [reflexivity|]. destruct (k =? 101); [reflexivity|].
  destruct (k =? 115) eqn:E.
  - destruct H as [[-> ->]|H]; [reflexivity|lia].
  - destruct (k =? 37); reflexivity.
Qed.

Lemma run_free number n : forall pat i s out, (length pat <= n)%nat -> 0 <= i -> begun N s out -> len out < N ->
  (n_per_song s = true /\ number = print_int (n_song s + 1)) \/ numbered pat = false ->
  arrives (expand_loop j input ext pat i s) N (expand_ins j number ins ext pat i) (n_per_song s) (n_song s) out.
Proof.
  induction n as [|n IH]; intros pat i s out Hn Hi B H C.
  - destruct pat; [|cbn [length] in Hn; lia]. cbn [expand_loop expand_ins]. unfold arrives. rewrite app_nil_r.
    replace (len out <? N) with true by lia. exists s. now repeat split; try apply B.
  - destruct pat as [|c r].
    + cbn [expand_loop expand_ins]. unfold arrives. rewrite app_nil_r.
      replace (len out <? N) with true by lia. exists s. now repeat split; try apply B.
    + cbn [expand_loop expand_ins]. cbn [numbered] in C. cbn [length] in Hn.
      pose proof (head_lands s out i Hi B H) as L. set (pre := if i =? ext then ins else []) in *. clearbody pre.
      destruct (c =? 37) eqn:Ec.
      * destruct r as [|k r].
        { unfold arrives. unfold lands in L. destruct (_ <? N); [destruct L as (s' & -> & _); reflexivity|now rewrite L]. }
        assert (T : (n_per_song s = true /\ number = print_int (n_song s + 1)) \/ k <> 115).
        { destruct C as [C|C]; [now left|right; lia]. }
        set (X := placeholder j number k) in *.
        destruct X as [t|] eqn:EX.
        -- replace (match expand_ins j number ins ext r (i + 2) with Some u => Some (pre ++ neutral t ++ u) | None => None end)
             with (option_map (app pre) (option_map (app (neutral t)) (expand_ins j number ins ext r (i + 2)))) by now destruct (expand_ins _ _ _ _ _ _).
           eapply arrives_step; [exact L|]. intros s1 B1 H1 P1 S1.
           assert (T1 : (n_per_song s1 = true /\ number = print_int (n_song s1 + 1)) \/ k <> 115) by (rewrite P1, S1; exact T).
           rewrite (choose_free s1 k number T1). fold X. rewrite EX. cbn [bind].
           eapply arrives_step; [apply store_tag_lands; assumption|]. intros s2 B2 H2 P2 S2.
           rewrite <- P1, <- S1, <- P2, <- S2. apply IH; try assumption; [cbn [length] in Hn; lia|lia|].
           destruct C as [C|C]; [left; now rewrite P2, S2, P1, S1|right]. apply orb_false_iff in C. tauto.
        -- unfold arrives. unfold lands in L. destruct (_ <? N); [destruct L as (s' & -> & _ & P1 & S1)|now rewrite L].
           cbn [bind]. rewrite (choose_free s' k number); [|rewrite P1, S1; exact T]. fold X. rewrite EX. reflexivity.
      * replace (match expand_ins j number ins ext r (i + 1) with Some u => Some (pre ++ c :: u) | None => None end)
          with (option_map (app pre) (option_map (app [c]) (expand_ins j number ins ext r (i + 1)))) by now destruct (expand_ins _ _ _ _ _ _).
        eapply arrives_step; [exact L|]. intros s1 B1 H1 P1 S1.
        eapply arrives_step; [apply store_lands; assumption|]. intros s2 B2 H2 P2 S2.
        rewrite <- P1, <- S1, <- P2, <- S2. apply IH; try assumption; [lia|lia|].
        destruct C as [C|C]; [left; now rewrite P2, S2, P1, S1|now right].
Qed.

(* the first %s *)
Definition permitted : bool := j_allow j && (j_arg_song j <? 0).

Lemma choose_number s : n_per_song s = false ->
  choose_tag j s 115 =
    if permitted then
      if j_songs j <=? n_song s + 1 then Ok (mkNaming (n_file s) (n_ptr s) false (n_song s + 1), None)
      else Ok (mkNaming (n_file s) (n_ptr s) true (n_song s + 1), Some (print_int (n_song s + 1 + 1)))
    else Fail.
Proof.
  intros P. unfold choose_tag, permitted. rewrite P. cbn [n_song n_file n_ptr]. change (115 =? 97) with false. change (115 =? 110) with false.
  change (115 =? 100) with false. change (115 =? 101) with false. change (115 =? 115) with true. cbn iota.
  destruct (j_allow j); cbn [negb andb]; [|reflexivity]. destruct (0 <=? j_arg_song j) eqn:E.
  - now replace (j_arg_song j <? 0) with false by lia.
  - now replace (j_arg_song j <? 0) with true by lia.
Qed.

(* what the loop does with a pattern that has a number in it; T is the expansion for a number *)
Definition counts (m : outcome (naming * bool)) (song : Z) (out : list Z) (T : list Z -> option (list Z)) : Prop :=
  if permitted then
    if j_songs j <=? song then
      (* no songs left: stop at the number if any number gives a name *)
      forall number t, T number = Some t -> len (out ++ t) < N -> exists s', m = Ok (s', false) /\ len (n_file s') = N
    else arrives m N (T (print_int (song + 1))) true song out
  else m = Fail.

Lemma counts_step (m : outcome naming) (k : naming -> outcome (naming * bool)) T per song song' out a :
  lands m N (out ++ a) per song ->
  (forall s, begun N s (out ++ a) -> len (out ++ a) < N -> n_per_song s = per -> n_song s = song -> counts (k s) song' (out ++ a) T) ->
  counts (bind m k) song' out (fun number => option_map (app a) (T number)).
Proof.
  intros L K. unfold counts in *. destruct permitted.
  - destruct (j_songs j <=? song').
    + intros number t E Ht. destruct (T number) as [u|] eqn:Eu; [|discriminate]. cbn [option_map] in E.
      assert (t = a ++ u) by congruence. subst t. rewrite app_assoc in Ht.
      unfold lands in L. replace (len (out ++ a) <? N) with true in L by (rewrite len_app in Ht; pose proof (len_nonneg u); lia).
      destruct L as (s & -> & B & H1 & H2). cbn [bind]. refine (K s B _ H1 H2 number u Eu Ht). rewrite len_app in Ht. pose proof (len_nonneg u). lia.
    + eapply arrives_step; eassumption.
  - unfold lands in L. destruct (len (out ++ a) <? N) eqn:E; [|now rewrite L].
    destruct L as (s & -> & B & H1 & H2). cbn [bind]. apply K; try assumption. lia.
Qed.

Lemma counts_ext m song out T T' : (forall number, T number = T' number) -> counts m song out T -> counts m song out T'.
Proof.
  intros E. unfold counts. destruct permitted; [|tauto]. destruct (_ <=? _).
  - intros H number t X. apply (H number). now rewrite E.
  - now rewrite E.
Qed.

Lemma counts_fail song out : counts Fail song out (fun _ => None).
Proof. unfold counts, arrives. destruct permitted; [|reflexivity]. destruct (_ <=? _); [discriminate|reflexivity]. Qed.

Lemma run_counts n : forall pat i s out, (length pat <= n)%nat -> 0 <= i -> begun N s out -> len out < N ->
  n_per_song s = false -> numbered pat = true ->
  counts (expand_loop j input ext pat i s) (n_song s + 1) out (fun number => expand_ins j number ins ext pat i).
Proof.
  induction n as [|n IH]; intros pat i s out Hn Hi B H P C.
  - destruct pat; [discriminate|cbn [length] in Hn; lia].
  - destruct pat as [|c r]; [discriminate|].
    cbn [expand_loop expand_ins]. cbn [numbered] in C. cbn [length] in Hn.
    pose proof (head_lands s out i Hi B H) as L. set (pre := if i =? ext then ins else []) in *. clearbody pre.
    destruct (c =? 37) eqn:Ec.
    + destruct r as [|k r]; [discriminate|].
      apply (counts_ext _ _ _ (fun number => option_map (app pre) (match placeholder j number k with Some t => option_map (app (neutral t)) (expand_ins j number ins ext r (i + 2)) | None => None end))).
      { intros number. destruct (placeholder j number k); [|reflexivity]; now destruct (expand_ins _ _ _ _ _ _). }
      eapply counts_step; [exact L|]. intros s1 B1 H1 P1 S1.
      destruct (Z.eqb_spec k 115) as [->|Nk].
      * rewrite choose_number by congruence. rewrite S1.
        unfold counts. destruct permitted; [|reflexivity].
        destruct (j_songs j <=? n_song s + 1); cbn [bind].
        { intros number t _ _. eexists. split; [reflexivity|]. cbn [n_file]. apply (begun_len _ _ _ B1). }
        change (placeholder j (print_int (n_song s + 1 + 1)) 115) with (Some (print_int (n_song s + 1 + 1))). cbn iota.
        set (number := print_int (n_song s + 1 + 1)). set (s1' := mkNaming (n_file s1) (n_ptr s1) true (n_song s + 1)).
        assert (B1' : begun N s1' (out ++ pre)) by exact B1.
        eapply arrives_step; [apply (store_tag_lands N number s1' _ B1' H1)|]. intros s2 B2 H2 P2 S2.
        change (n_per_song s1') with true in P2. change (n_song s1') with (n_song s + 1) in S2.
        rewrite <- P2. rewrite <- S2. apply (run_free number (length r)); try assumption; [lia|lia|].
        left. split; [exact P2|]. now rewrite S2.
      * replace (k =? 115) with false in C by lia. cbn [orb] in C.
        assert (PH : forall number, placeholder j number k = placeholder j [] k).
        { intros number. unfold placeholder. now replace (k =? 115) with false by lia. }
        rewrite (choose_free s1 k []) by now right.
        apply (counts_ext _ _ _ (fun number => match placeholder j [] k with Some t => option_map (app (neutral t)) (expand_ins j number ins ext r (i + 2)) | None => None end)).
        { intros number. now rewrite (PH number). }
        destruct (placeholder j [] k) as [t|]; cbn [bind]; [|apply counts_fail].
        eapply counts_step; [apply store_tag_lands; assumption|]. intros s2 B2 H2 P2 S2.
        replace (n_song s + 1) with (n_song s2 + 1) by congruence.
        apply IH; try assumption; [cbn [length] in Hn; lia|lia|congruence].
    + apply (counts_ext _ _ _ (fun number => option_map (app pre) (option_map (app [c]) (expand_ins j number ins ext r (i + 1))))).
      { intros number. now destruct (expand_ins _ _ _ _ _ _). }
      eapply counts_step; [exact L|]. intros s1 B1 H1 P1 S1.
      eapply counts_step; [apply store_lands; assumption|]. intros s2 B2 H2 P2 S2.
      replace (n_song s + 1) with (n_song s2 + 1) by congruence.
      apply IH; try assumption; [lia|lia|congruence].
Qed.
End Run.

(* the expansion with an insertion is the expansion of the two parts *)
Lemma expand_ins_after j number ins ext n : forall pat i, (length pat <= n)%nat -> ext < i -> expand_ins j number ins ext pat i = expand j number pat.
Proof.
  induction n as [|n IH]; intros pat i Hn Hi.
  - destruct pat; [reflexivity|cbn [length] in Hn; lia].
  - destruct pat as [|c r]; [reflexivity|]. cbn [expand_ins expand length] in *. replace (i =? ext) with false by lia.
    destruct (c =? 37).
    + destruct r as [|k r]; [reflexivity|]. cbn [length] in Hn. rewrite IH by lia. reflexivity.
    + rewrite IH by lia. now destruct (expand j number r).
Qed.

Lemma expand_ins_at j number ins r n : forall head i, (length head <= n)%nat ->
  expand_ins j number ins (i + len head) (head ++ 46 :: r) i =
  match expand j number head, expand j number (46 :: r) with
  | Some h, Some e => Some (h ++ ins ++ e)
  | _, _ => None
  end.
Proof.
  induction n as [|n IH]; intros head i Hn.
  - destruct head; [|cbn [length] in Hn; lia]. cbn [app expand_ins expand]. change (46 =? 37) with false. cbn iota.
    change (len (@nil Z)) with 0. rewrite Z.add_0_r, Z.eqb_refl.
    rewrite (expand_ins_after _ _ _ _ (length r)) by lia. now destruct (expand j number r).
  - destruct head as [|c h].
    { apply (IH [] i). cbn [length]. lia. }
    cbn [app expand_ins]. cbn [length] in Hn. rewrite len_cons. replace (i =? i + (1 + len h)) with false by (pose proof (len_nonneg h); lia).
    change (expand j number (c :: h)) with (if c =? 37 then match h with [] => None | k :: r => match placeholder j number k, expand j number r with Some t, Some u => Some (neutral t ++ u) | _, _ => None end end else option_map (cons c) (expand j number h)).
    destruct (c =? 37).
    + destruct h as [|k h].
      * cbn [app]. reflexivity.
      * cbn [app]. cbn [length] in Hn. rewrite len_cons. replace (i + (1 + (1 + len h))) with (i + 2 + len h) by lia. rewrite IH by lia.
        destruct (placeholder j number k); [|reflexivity]. destruct (expand j number h); [|reflexivity].
        destruct (expand j number (46 :: r)); [|reflexivity]. cbn [app]. now rewrite <- app_assoc.
    + replace (i + (1 + len h)) with (i + 1 + len h) by lia. rewrite IH by lia.
      destruct (expand j number h); [|reflexivity]. destruct (expand j number (46 :: r)); reflexivity.
Qed.

Lemma expand_ins_none j number ins n : forall pat i, (length pat <= n)%nat -> 0 <= i -> expand_ins j number ins (-1) pat i = expand j number pat.
Proof. intros pat i Hn Hi. apply (expand_ins_after _ _ _ _ n); [exact Hn|lia]. Qed.

Lemma expand_ins_nil j number ext n : forall pat i, (length pat <= n)%nat -> expand_ins j number [] ext pat i = expand j number pat.
Proof.
  induction n as [|n IH]; intros pat i Hn.
  - destruct pat; [reflexivity|cbn [length] in Hn; lia].
  - destruct pat as [|c r]; [reflexivity|]. cbn [expand_ins expand length] in *. destruct (i =? ext).
    all: destruct (c =? 37);
      [destruct r as [|k r]; [reflexivity|]; cbn [length] in Hn; rewrite IH by lia; reflexivity
      |rewrite IH by lia; now destruct (expand j number r)].
Qed.

Lemma expand_split j number head r :
  expand j number (head ++ 46 :: r) =
  match expand j number head, expand j number (46 :: r) with
  | Some h, Some e => Some (h ++ e)
  | _, _ => None
  end.
Proof.
  rewrite <- (expand_ins_nil j number (0 + len head) (length (head ++ 46 :: r)) _ 0) by lia.
  apply (expand_ins_at j number [] r (length head)). lia.
Qed.
