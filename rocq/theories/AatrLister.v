(* The recursive lister visits all files of an ATR disk image. *)
From Verif Require Import Base BaseFacts Loop AatrModel AatrSpec AatrProofs AatrList.

(* ---- paths ---- *)
Definition whole (p : list Z) : Prop := p = [] \/ exists q, p = q ++ [47].

Lemma back_spec path p : forall n i, p <= i -> i <= len path -> i - p <= Z.of_nat n -> 0 <= p -> (p = 0 \/ at_ path (p - 1) = 47) ->
  (forall j, p <= j < i -> at_ path j <> 47) -> back_to_slash n path i = Ok (p - 1).
Proof.
  induction n as [|n IH]; intros i Hi Hl Hn Hp E N; cbn [back_to_slash]; cbv zeta.
  - assert (i = p) by lia. subst i. destruct (Z.ltb_spec (p - 1) 0); [reflexivity|]. rewrite get_ok by lia. cbn [bind]. destruct E as [E|E]; [lia|]. rewrite E. reflexivity.
  - destruct (Z.ltb_spec (i - 1) 0); [assert (i = p) by lia; subst i; reflexivity|]. rewrite get_ok by lia. cbn [bind].
    destruct (Z.eq_dec i p) as [-> |C].
    + destruct E as [E|E]; [lia|]. rewrite E. reflexivity.
    + destruct (Z.eqb_spec (at_ path (i - 1)) 47) as [Q|Q]; [exfalso; apply (N (i - 1)); [lia|exact Q]|]. apply IH; try assumption; try lia; intros j Hj; apply N; lia.
Qed.

Lemma parent_spec p name : whole p -> Forall (fun c => c <> 47) name -> parent_path (p ++ name ++ [47]) = Ok p.
Proof.
  intros W N. unfold parent_path. pose proof (len_nonneg p). pose proof (len_nonneg name).
  assert (L : len (p ++ name ++ [47]) = len p + len name + 1) by (rewrite !len_app; change (len [47]) with 1; lia).
  rewrite (back_spec _ (len p)).
  - cbn [bind]. unfold get_range. replace (len p - 1 + 1 - 0) with (len p) by lia. replace (len p - 1 + 1) with (len p) by lia.
    replace (len p <? 0) with false by lia. replace ((0 <? 0) || (len (p ++ name ++ [47]) <? len p)) with false by lia. f_equal.
    unfold slice. rewrite Z.sub_0_r. change (Z.to_nat 0) with 0%nat. cbn [skipn]. rewrite firstn_app. unfold len. rewrite Nat2Z.id, Nat.sub_diag, firstn_all. apply app_nil_r.
  - lia.
  - lia.
  - unfold len in *. lia.
  - lia.
  - destruct W as [-> |(q & ->)]; [left; reflexivity|right]. rewrite len_app in *. change (len [47]) with 1 in *. replace (len q + 1 - 1) with (len q) by lia.
    rewrite <- app_assoc. rewrite at_app2 by lia. rewrite Z.sub_diag. reflexivity.
  - intros j Hj. rewrite at_app2 by lia. rewrite at_app1 by lia. rewrite Forall_forall in N. apply N. unfold at_. apply nth_In. unfold len in *. lia.
Qed.

(* ---- the stack of open directories ---- *)
Definition unit_ (depth : nat) : Z := 66 ^ (19 - Z.of_nat depth).
Inductive open_at (disk : aatr) (dirs : list directory) : nat -> list Z -> list (list Z * entry) -> Z -> Prop :=
| open_root_at k d : nth_error dirs 0 = Some d -> iter_at disk root k d ->
    open_at disk dirs 0 [] (listing disk 19 [] (from disk root k)) ((65 - k) * unit_ 0)
| open_sub depth path rest w f k d name : open_at disk dirs depth path rest w -> (S depth <= 19)%nat -> Forall (fun c => c <> 47) name ->
    nth_error dirs (S depth) = Some d -> iter_at disk f k d ->
    open_at disk dirs (S depth) (path ++ name ++ [47]) (listing disk (19 - S depth) (path ++ name ++ [47]) (from disk f k) ++ rest) (w + (65 - k) * unit_ (S depth)).

Lemma open_whole disk dirs depth path rem w : open_at disk dirs depth path rem w -> whole path.
Proof. intros H. destruct H; [left; reflexivity|]. right. exists (path ++ name). now rewrite app_assoc. Qed.

Lemma open_frame disk dirs dirs' depth path rem w : (forall i, (i <= depth)%nat -> nth_error dirs' i = nth_error dirs i) ->
  open_at disk dirs depth path rem w -> open_at disk dirs' depth path rem w.
Proof.
  intros A H. revert A. induction H as [k d N I|depth path rest w f k d name H IH L F N I]; intros A.
  - constructor 1 with d; [|exact I]. rewrite A; [exact N|lia].
  - constructor 2 with d; auto. rewrite A; [exact N|lia].
Qed.

Lemma unit_pos depth : (depth <= 19)%nat -> 0 < unit_ depth.
Proof. intros H. unfold unit_. apply Z.pow_pos_nonneg; lia. Qed.
Lemma unit_S depth : (S depth <= 19)%nat -> unit_ depth = 66 * unit_ (S depth).
Proof. intros H. unfold unit_. replace (19 - Z.of_nat depth) with (Z.succ (19 - Z.of_nat (S depth))) by lia. apply Z.pow_succ_r. lia. Qed.

Lemma open_weight disk dirs depth path rem w : open_at disk dirs depth path rem w -> (depth <= 19)%nat /\ unit_ depth <= w /\ w + unit_ depth <= 66 * unit_ 0.
Proof.
  induction 1 as [k d N I|depth path rest w f k d name H IH L F N I].
  - destruct I as (_ & _ & K & _). pose proof (unit_pos 0 ltac:(lia)). split; [lia|].
    assert (0 <= (64 - k) * unit_ 0) by (apply Z.mul_nonneg_nonneg; lia). assert (0 <= k * unit_ 0) by (apply Z.mul_nonneg_nonneg; lia). lia.
  - destruct I as (_ & _ & K & _). destruct IH as (_ & W1 & W2). rewrite (unit_S depth L) in *. pose proof (unit_pos (S depth) L) as P. split; [exact L|].
    set (u := unit_ (S depth)) in *. assert (0 <= (64 - k) * u) by (apply Z.mul_nonneg_nonneg; lia). assert (0 <= k * u) by (apply Z.mul_nonneg_nonneg; lia). lia.
Qed.

(* the innermost directory, and what is below it on the stack *)
Lemma open_top disk dirs depth path rem w : open_at disk dirs depth path rem w ->
  exists f k d rest w0, nth_error dirs depth = Some d /\ iter_at disk f k d /\ rem = listing disk (19 - depth) path (from disk f k) ++ rest /\ w = w0 + (65 - k) * unit_ depth
  /\ (forall dirs' k' d', (forall i, (i < depth)%nat -> nth_error dirs' i = nth_error dirs i) -> nth_error dirs' depth = Some d' -> iter_at disk f k' d' ->
        open_at disk dirs' depth path (listing disk (19 - depth) path (from disk f k') ++ rest) (w0 + (65 - k') * unit_ depth))
  /\ match depth with
     | O => rest = []
     | S n => exists p, parent_path path = Ok p /\ open_at disk dirs n p rest w0
     end.
Proof.
  intros H. destruct H as [k d N I|depth path rest w f k d name H L F N I].
  - exists root, k, d, [], 0. split; [exact N|]. split; [exact I|]. split; [now rewrite app_nil_r|]. split; [lia|]. split; [|reflexivity].
    intros dirs' k' d' A N' I'. rewrite app_nil_r. rewrite Z.add_0_l. now constructor 1 with d'.
  - exists f, k, d, rest, w. split; [exact N|]. split; [exact I|]. split; [reflexivity|]. split; [reflexivity|]. split.
    + intros dirs' k' d' A N' I'. constructor 2 with d'; auto. apply open_frame with dirs; [|exact H]. intros i Hi. apply A. lia.
    + exists path. split; [|exact H]. apply parent_spec; [|exact F]. now apply open_whole in H.
Qed.

Lemma listing_cons disk levels prefix e es : listing disk levels prefix (e :: es) =
  (if is_directory e then match levels with O => [] | S l => listing disk l (prefix ++ e_name e ++ [47]) (entries disk (e_first e)) end else [(prefix ++ e_name e, e)])
  ++ listing disk levels prefix es.
Proof. destruct levels; reflexivity. Qed.
Lemma listing_nil disk levels prefix : listing disk levels prefix [] = [].
Proof. destruct levels; reflexivity. Qed.

Lemma nth_error_upd {A} (l : list A) : forall i j v, (i < length l)%nat -> nth_error (upd l i v) j = if Nat.eqb i j then Some v else nth_error l j.
Proof.
  induction l as [|x l IH]; intros [|i] [|j] v H; cbn [upd nth_error length Nat.eqb] in *; try lia; try reflexivity. apply IH. lia.
Qed.
Lemma Forall_upd {A} (P : A -> Prop) (l : list A) : forall i v, P v -> Forall P l -> Forall P (upd l i v).
Proof. induction l as [|x l IH]; intros [|i] v H F; cbn [upd]; auto; inversion F; subst; constructor; auto. Qed.

Definition dirs_ok (dirs : list directory) : Prop := length dirs = 20%nat /\ Forall sector128 dirs.
Lemma dirs_ok_upd dirs i d : dirs_ok dirs -> sector128 d -> dirs_ok (upd dirs i d).
Proof. intros [L F] S. split; [now rewrite length_upd|now apply Forall_upd]. Qed.
Lemma get_dir_ok dirs i d : nth_error dirs i = Some d -> get_dir dirs (Z.of_nat i) = Ok d.
Proof. intros H. unfold get_dir. replace (Z.of_nat i <? 0) with false by lia. now rewrite Nat2Z.id, H. Qed.
Lemma set_nth_ok {A} (l : list A) i v : (i < length l)%nat -> set_nth l (Z.of_nat i) v = Ok (upd l i v).
Proof. intros H. unfold set_nth, len. replace (_ || _) with false by lia. now rewrite Nat2Z.id. Qed.

(* the state of the lister: what it has still to return *)
Definition state_ok (disk : aatr) (l : lister) (rem : list (list Z * entry)) (w : Z) : Prop :=
  dirs_ok (li_directories l) /\ exists depth, li_depth l = Z.of_nat depth /\ open_at disk (li_directories l) depth (li_path l) rem w.

Definition file_step (disk : aatr) (rem : list (list Z * entry)) (w : Z) (x : lister + (option (list Z) * lister)) : Prop :=
  match x with
  | inl l => exists w', w' < w /\ state_ok disk l rem w'
  | inr (None, _) => rem = []
  | inr (Some path, l) => exists e rest w' d, rem = (path, e) :: rest /\ state_ok disk l rest w' /\ lister_directory l = Ok d /\ points d e
  end.

Lemma next_file_step_spec disk l rem w : image_ok disk -> state_ok disk l rem w -> wp (next_file_step disk l) (file_step disk rem w).
Proof.
  intros I (DO & depth & E & O). destruct l as [dirs ld path]. cbn [li_directories li_depth li_path] in *. subst ld.
  pose proof (open_weight _ _ _ _ _ _ O) as (D19 & _ & _). pose proof (unit_pos depth D19) as U.
  destruct (open_top _ _ _ _ _ _ O) as (f & k & d & rest & w0 & N & IT & -> & -> & REP & POP). pose proof DO as [L20 FO].
  unfold next_file_step. cbn [li_directories li_depth li_path]. rewrite (get_dir_ok _ _ _ N). cbn [bind].
  apply wp_bind. eapply wp_mono; [apply next_entry_spec; eassumption|]. intros [filename d1] R.
  rewrite set_nth_ok by lia. cbn [bind]. cbv zeta. cbn [li_directories li_depth li_path].
  assert (LOW : forall i, (i < depth)%nat -> nth_error (upd dirs depth d1) i = nth_error dirs i).
  { intros i Hi. rewrite nth_error_upd by lia. replace (Nat.eqb depth i) with false; [reflexivity|]. symmetry. apply Nat.eqb_neq. lia. }
  assert (TOP : nth_error (upd dirs depth d1) depth = Some d1) by (rewrite nth_error_upd by lia; now rewrite Nat.eqb_refl).
  destruct filename as [name|]; cbn [entry_result] in R.
  - destruct R as (k' & e & Kk & IT' & Ee & P & F). rewrite (points_directory _ _ P). cbn [bind]. pose proof IT' as (_ & _ & K' & S1 & _).
    assert (DO1 : dirs_ok (upd dirs depth d1)) by (now apply dirs_ok_upd).
    assert (NAME : Forall (fun c => c <> 47) name).
    { pose proof (entries_ok disk f (Z.to_nat (64 - k)) k) as EO. fold (from disk f k) in EO. rewrite F in EO. inversion EO as [|? ? [_ EN] _]; subst. exact EN. }
    specialize (REP _ k' d1 LOW TOP IT'). rewrite F, listing_cons, Ee.
    assert (DROP : (65 - k') * unit_ depth <= (65 - k) * unit_ depth - unit_ depth).
    { assert (0 <= (k' - k - 1) * unit_ depth) by (apply Z.mul_nonneg_nonneg; lia). lia. }
    destruct (is_directory e) eqn:ISD.
    + unfold max_depth. destruct (Z.leb_spec (20 - 1) (Z.of_nat depth)) as [C|C].
      * cbn [wp continue_ file_step]. exists (w0 + (65 - k') * unit_ depth). split; [lia|].
        split; [exact DO1|]. exists depth. cbn [li_directories li_depth li_path]. split; [reflexivity|].
        replace (19 - depth)%nat with 0%nat in * by lia. exact REP.
      * assert (NC : exists c, nth_error dirs (S depth) = Some c).
        { destruct (nth_error dirs (S depth)) eqn:Q; [eauto|]. apply nth_error_None in Q. lia. }
        destruct NC as (c & NC).
        assert (NC1 : nth_error (upd dirs depth d1) (S depth) = Some c).
        { rewrite nth_error_upd by lia. replace (Nat.eqb depth (S depth)) with false; [exact NC|]. symmetry. apply Nat.eqb_neq. lia. }
        replace (Z.of_nat depth + 1) with (Z.of_nat (S depth)) by lia. rewrite (get_dir_ok _ _ _ NC1). cbn [bind].
        destruct P as [_ P]. unfold open_directory. rewrite P. cbn [bind]. rewrite set_nth_ok by (rewrite length_upd; lia). cbn [bind wp continue_ file_step].
        assert (SC : sector128 c) by (rewrite Forall_forall in FO; apply FO; eapply nth_error_In; eassumption).
        exists (w0 + (65 - k') * unit_ depth + (65 - 0) * unit_ (S depth)). split.
        -- rewrite (unit_S depth) in * by lia. pose proof (unit_pos (S depth) ltac:(lia)). lia.
        -- split; [apply dirs_ok_upd; [exact DO1|exact SC]|]. exists (S depth). cbn [li_directories li_depth li_path]. split; [reflexivity|].
           replace (19 - depth)%nat with (S (19 - S depth)) at 1 by lia. rewrite entries_all. rewrite <- app_assoc.
           eapply open_sub.
           ++ eapply open_frame; [|exact REP]. intros i Hi. rewrite nth_error_upd by (rewrite length_upd; lia).
              replace (Nat.eqb (S depth) i) with false; [reflexivity|]. symmetry. apply Nat.eqb_neq. lia.
           ++ lia.
           ++ exact NAME.
           ++ rewrite nth_error_upd by (rewrite length_upd; lia). now rewrite Nat.eqb_refl.
           ++ destruct SC as [SC1 SC2]. now apply start_iter.
    + cbn [wp leave file_step app]. eexists e, _, _, d1. split; [reflexivity|]. split.
      * split; [exact DO1|]. exists depth. split; [reflexivity|]. exact REP.
      * split; [|exact P]. unfold lister_directory. cbn [li_directories li_depth]. now apply get_dir_ok.
  - destruct R as [S1 F]. rewrite F, listing_nil. cbn [app].
    destruct depth as [|n].
    + cbn [wp leave file_step]. exact POP.
    + replace (Z.of_nat (S n) =? 0) with false by lia. destruct POP as (p & -> & OP). cbn [bind wp continue_ file_step].
      pose proof IT as (_ & _ & K & _). exists w0. split.
      * assert (0 <= (64 - k) * unit_ (S n)) by (apply Z.mul_nonneg_nonneg; lia). lia.
      * split; [now apply dirs_ok_upd|]. exists n. cbn [li_directories li_depth li_path]. split; [lia|]. apply open_frame with dirs; [|exact OP]. intros i Hi. apply LOW. lia.
Qed.

Lemma next_file_loop disk rem : image_ok disk -> forall fuel l w, state_ok disk l rem w -> w <= Z.of_nat fuel ->
  wp (loop fuel (next_file_step disk) l) (fun x => file_step disk rem 0 (inr x)).
Proof.
  intros I. induction fuel as [|fuel IH]; intros l w S W; cbn [loop]; apply wp_bind.
  - exfalso. destruct S as (_ & depth & _ & O). apply open_weight in O. destruct O as (D & U & _). pose proof (unit_pos depth D). lia.
  - eapply wp_mono; [apply (next_file_step_spec disk l rem w I S)|]. intros [l'|r] H; [|exact H]. destruct H as (w' & L & S'). apply IH with w'; [exact S'|lia].
Qed.
Lemma next_file_bounded disk n l rem w : image_ok disk -> state_ok disk l rem w -> w < n -> wp (loopZ n (next_file_step disk) l) (fun x => file_step disk rem 0 (inr x)).
Proof.
  intros I S W. rewrite loopZ_loop. apply next_file_loop with w; [exact I|exact S|].
  destruct S as (_ & depth & _ & O). apply open_weight in O. destruct O as (D & U & _). pose proof (unit_pos depth D). lia.
Qed.
Lemma next_file_spec disk l rem w : image_ok disk -> state_ok disk l rem w -> wp (next_file disk l) (fun x => file_step disk rem 0 (inr x)).
Proof.
  intros I S. apply next_file_bounded with w; [exact I|exact S|]. destruct S as (_ & depth & _ & O). apply open_weight in O. destruct O as (D & U & W).
  pose proof (unit_pos depth D). change (66 * unit_ 0) with (66 ^ 20) in W. lia.
Qed.

Lemma parent_path_fail path : parent_path path <> Fail.
Proof.
  unfold parent_path. apply bind_fail; [|intros; apply get_range_fail]. generalize (len path - 1). generalize (length path). clear.
  induction n as [|n IH]; intros i; cbn [back_to_slash]; cbv zeta; (destruct (i - 1 <? 0); [discriminate|]; apply bind_fail; [apply get_fail|]; intros c; destruct (c =? 47); [discriminate|]);
    [discriminate|apply IH].
Qed.
Lemma next_file_step_fail disk l : next_file_step disk l <> Fail.
Proof.
  unfold next_file_step. apply bind_fail; [apply get_dir_fail|]. intros d. apply bind_fail; [apply next_entry_fail|]. intros [name d1].
  apply bind_fail; [apply set_nth_fail|]. intros dirs. cbv zeta. cbn [li_directories li_depth li_path]. destruct name as [name|].
  - apply bind_fail; [apply is_entry_directory_fail|]. intros b. destruct b; [|discriminate]. destruct (_ <=? _); [discriminate|].
    apply bind_fail; [apply get_dir_fail|]. intros c. apply bind_fail; [apply open_directory_fail|]. intros c1. apply bind_fail; [apply set_nth_fail|]. discriminate.
  - destruct (_ =? 0); [discriminate|]. apply bind_fail; [apply parent_path_fail|]. discriminate.
Qed.
Lemma next_file_fail disk l : next_file disk l <> Fail.
Proof. apply loopZ_fail. apply next_file_step_fail. Qed.

Lemma lists_rem disk : image_ok disk -> forall rem l w, state_ok disk l rem w -> lists disk l rem.
Proof.
  intros I. induction rem as [|[path e] rem IH]; intros l w S; pose proof (next_file_spec _ _ _ _ I S) as W; pose proof (next_file_fail disk l) as NF;
    destruct (next_file disk l) as [[[p|] l']| | |] eqn:E; cbn [wp file_step] in W; try contradiction; try discriminate.
  - destruct W as (? & ? & ? & ? & W & _). discriminate.
  - now apply lists_end with l'.
  - destruct W as (e' & rest & w' & d & W & S' & D & P). assert (p = path) by congruence. assert (e' = e) by congruence. assert (rest = rem) by congruence. subst.
    eapply lists_file; [exact E|exact D|exact P|]. now apply IH with w'.
Qed.

Lemma lister_lists disk l : image_ok disk -> dirs_ok (li_directories l) -> exists l', lister_open l = Ok l' /\ lists disk l' (all_files disk).
Proof.
  intros I DO. pose proof DO as [L F]. unfold lister_open. destruct (li_directories l) as [|d dirs] eqn:E; [discriminate|].
  change 0 with (Z.of_nat 0). rewrite (get_dir_ok (d :: dirs) 0 d) by reflexivity. cbn [bind]. rewrite set_nth_ok by (cbn [length]; lia). cbn [bind]. eexists. split; [reflexivity|].
  inversion F as [|? ? [S1 S2] F']; subst.
  apply lists_rem with ((65 - 0) * unit_ 0); [exact I|]. split.
  - apply dirs_ok_upd; [exact DO|]. split; [exact S1|exact S2].
  - exists 0%nat. split; [reflexivity|]. unfold all_files. rewrite entries_all. constructor 1 with (open_root d); [reflexivity|]. now apply start_iter.
Qed.

(* ---- how long the paths can be ---- *)
Lemma listing_lengths disk : forall levels prefix es, Forall entry_ok es ->
  Forall (fun x => len (fst x) <= len prefix + 13 * Z.of_nat levels + 12 /\ is_directory (snd x) = false) (listing disk levels prefix es).
Proof.
  induction levels as [|levels IH]; intros prefix es F; induction F as [|e es [L _] F IHe]; try rewrite listing_nil; try constructor; rewrite listing_cons; apply Forall_app; (split; [|exact IHe]);
    destruct (is_directory e) eqn:D; try constructor; cbn [fst snd]; try (split; [rewrite len_app; lia|exact D]); try constructor.
  eapply Forall_impl; [|apply IH; apply all_entries_ok]. intros x [A B]. split; [|exact B]. rewrite !len_app in A. change (len [47]) with 1 in A. lia.
Qed.
Lemma listing_in disk levels es path e : Forall entry_ok es -> In (path, e) (listing disk levels [] es) -> len path <= 13 * Z.of_nat levels + 12 /\ is_directory e = false.
Proof.
  intros F H. pose proof (listing_lengths disk levels [] es F) as K. rewrite Forall_forall in K. specialize (K _ H). exact K.
Qed.
Lemma path_lengths disk path e : In (path, e) (all_files disk) -> len path <= 259 /\ is_directory e = false.
Proof. exact (listing_in disk 19 (entries disk root) path e (all_entries_ok disk root)). Qed.
