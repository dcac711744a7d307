(* Listing and searching the directories of an ATR disk image. *)
From Verif Require Import Base BaseFacts Loop AatrModel AatrSpec AatrProofs.

Definition entry_result (disk : aatr) (f k : Z) (x : option (list Z) * directory) : Prop :=
  match x with
  | (None, d) => sector128 d /\ from disk f k = []
  | (Some name, d) => exists k' e, k < k' <= 64 /\ iter_at disk f k' d /\ e_name e = name /\ points d e /\ from disk f k = e :: from disk f k'
  end.

Lemma next_entry_spec disk f k d : image_ok disk -> iter_at disk f k d -> wp (next_entry disk d) (entry_result disk f k).
Proof.
  intros I H. apply wpg_wp. unfold next_entry.
  apply (loopZ_wpg (fun _ => False) False (next_entry_step disk)
           (fun d => exists j, k <= j /\ iter_at disk f j d /\ from disk f k = from disk f j) (fun d => 63 - dir_fileNo d)).
  - intros s (j & _ & (_ & N & Hj & _) & _). lia.
  - intros s (j & Kj & J & E). pose proof J as (_ & N & Hj & _). apply wp_wpg. eapply wp_mono; [apply next_entry_step_spec; eassumption|].
    intros [d1|[[name|] d1]]; cbn [step_result entry_result].
    + intros (J1 & E1). pose proof J1 as (_ & N1 & Hj1 & _). split; [|right; lia]. exists (j + 1). split; [lia|]. split; [exact J1|congruence].
    + intros (J1 & e & Ee & P & E1). pose proof J1 as (_ & N1 & Hj1 & _). exists (j + 1), e. split; [lia|]. split; [exact J1|]. split; [exact Ee|]. split; [exact P|congruence].
    + intros (S & E1). split; [exact S|congruence].
  - exists k. split; [lia|]. auto.
  - right. destruct H as (_ & N & Hk & _). lia.
Qed.

Lemma points_directory d e : points d e -> is_entry_directory d = Ok (is_directory e).
Proof. intros [T _]. unfold is_entry_directory. rewrite T. reflexivity. Qed.

(* ---- names ---- *)
Definition entry_ok (e : entry) : Prop := len (e_name e) <= 12 /\ Forall (fun c => c <> 47) (e_name e).
Lemma filename_char_slash c : filename_char c = true -> c <> 47.
Proof. intros H ->. discriminate. Qed.
Lemma name_field_ok l w : name_field l = Some w -> len w <= len l /\ Forall (fun c => c <> 47) w.
Proof.
  intros H. split.
  - destruct (name_field_prefix _ _ H) as (r & ->). rewrite len_app. pose proof (len_nonneg r). lia.
  - apply name_field_chars in H. rewrite forallb_forall in H. apply Forall_forall. intros c Hc. apply filename_char_slash. now apply H.
Qed.
Lemma entry_name_ok r name : entry_name r = Some name -> len name <= 12 /\ Forall (fun c => c <> 47) name.
Proof.
  unfold entry_name. destruct (name_field (slice r 5 13)) as [w|] eqn:W; [|discriminate]. destruct (name_field (slice r 13 16)) as [x|] eqn:X; [|destruct w; discriminate].
  apply name_field_ok in W, X. destruct W as [W1 W2], X as [X1 X2].
  assert (L8 : len (slice r 5 13) <= 8) by (unfold slice, len; rewrite firstn_length; lia).
  assert (L3 : len (slice r 13 16) <= 3) by (unfold slice, len; rewrite firstn_length; lia).
  assert (G : forall v, v = w \/ v = w ++ 46 :: x -> len v <= 12 /\ Forall (fun c => c <> 47) v).
  { intros v [-> | ->]; [split; [lia|exact W2]|]. rewrite len_app, len_cons. split; [lia|]. apply Forall_app. split; [exact W2|]. constructor; [discriminate|exact X2]. }
  intros H. apply G. destruct w; destruct x; try discriminate; injection H as <-; auto.
Qed.
Lemma entries_ok disk f n : forall k, Forall entry_ok (entries_from disk f n k).
Proof.
  induction n as [|n IH]; intros k; cbn [entries_from]; [constructor|]. destruct (directory_record disk f k) as [r|]; [|constructor]. cbv zeta.
  destruct (_ =? 0); [constructor|]. destruct (is_kind _ _); [|apply IH]. destruct (entry_name r) as [name|] eqn:E; [|apply IH].
  constructor; [|apply IH]. now apply entry_name_ok in E.
Qed.

Lemma entries_all disk f : entries disk f = from disk f 0.
Proof. unfold entries, from. replace (Z.to_nat (64 - 0)) with 64%nat by reflexivity. reflexivity. Qed.

Lemma all_entries_ok disk f : Forall entry_ok (entries disk f). Proof. exact (entries_ok disk f 64 0). Qed.
Local Opaque entries.

(* ---- searching ---- *)
Lemma named_cons name e l : named name (e :: l) = if eqb_list (e_name e) name then Some e else named name l.
Proof. reflexivity. Qed.
Definition search_result (found : option entry) (x : bool * directory) : Prop :=
  sector128 (snd x) /\ match found with Some e => fst x = true /\ points (snd x) e | None => fst x = false end.

Lemma find_from disk f name found d : image_ok disk -> (exists j, iter_at disk f j d /\ found = named name (from disk f j)) ->
  wp (find_entry disk name d) (search_result found).
Proof.
  intros I INI. apply wpg_wp. unfold find_entry.
  apply (loopZ_wpg (fun _ => False) False (find_entry_step disk name)
           (fun d => exists j, iter_at disk f j d /\ found = named name (from disk f j)) (fun d => 63 - dir_fileNo d)).
  - intros s (j & (_ & N & Hj & _) & _). lia.
  - intros s (j & J & E). pose proof J as (_ & N & Hj & _). unfold find_entry_step. apply wpg_bind. apply wp_wpg.
    eapply wp_mono; [apply next_entry_spec; eassumption|]. intros [[current|] d1]; cbn [entry_result].
    + intros (k' & e & Kk & J1 & Ee & P & F). rewrite F, named_cons, Ee in E. destruct (eqb_list current name) eqn:Q.
      * cbn [wpg leave]. subst found. split; [apply J1|]. split; [reflexivity|exact P].
      * cbn [wpg continue_]. pose proof J1 as (_ & N1 & _). split; [|right; lia]. exists k'. auto.
    + intros (S & F). rewrite F in E. cbn [wpg leave]. subst found. split; [exact S|reflexivity].
  - exact INI.
  - right. destruct INI as (j & (_ & N & Hj & _) & _). lia.
Qed.
Lemma find_entry_spec disk f d name : image_ok disk -> iter_at disk f 0 d -> wp (find_entry disk name d) (search_result (named name (entries disk f))).
Proof. intros I H. apply find_from with f; [exact I|]. exists 0. rewrite entries_all. auto. Qed.

Lemma named_long disk f name : 12 < len name -> named name (entries disk f) = None.
Proof.
  intros H. unfold named. destruct (find _ _) as [e|] eqn:E; [|reflexivity]. apply find_some in E. destruct E as [E1 E2]. apply eqb_list_spec in E2.
  pose proof (all_entries_ok disk f) as A. rewrite Forall_forall in A. destruct (A e E1) as [A1 _]. rewrite E2 in A1. lia.
Qed.

Lemma start_iter disk f sector : len sector = 128 -> bytes sector -> iter_at disk f 0 (mkDirectory f (-1) sector).
Proof. intros L B. split; [reflexivity|]. split; [reflexivity|]. split; [lia|]. split; [split; assumption|]. intros N. contradiction. Qed.

Lemma find_recursively_spec disk : image_ok disk -> forall rest part f d, iter_at disk f 0 d ->
  wp (find_recursively disk part rest d) (fun x => match resolve disk part rest (entries disk f) with Some e => fst x = true /\ points (snd x) e | None => fst x = false end).
Proof.
  intros I. induction rest as [|c rest IH]; intros part f d H; cbn [find_recursively resolve].
  - destruct (Z.ltb_spec 12 (len part)) as [C|C]; [rewrite named_long by exact C; reflexivity|].
    eapply wp_mono; [apply find_entry_spec; eassumption|]. intros [b d1] [_ A]. destruct (named part (entries disk f)); exact A.
  - destruct (c =? 47); [|now apply IH]. destruct (Z.ltb_spec 12 (len part)) as [C|C]; [rewrite named_long by exact C; reflexivity|].
    apply wp_bind. eapply wp_mono; [apply find_entry_spec; eassumption|]. intros [b d1] [[S1 S2] A]. cbn [fst snd] in *. destruct (named part (entries disk f)) as [e|].
    + destruct A as [-> P]. cbn [negb]. rewrite (points_directory _ _ P). cbn [bind]. destruct (is_directory e); [|reflexivity]. cbn [negb].
      destruct P as [_ P]. unfold open_directory. rewrite P. cbn [bind]. apply IH. now apply start_iter.
    + subst b. reflexivity.
Qed.

(* nothing here reports failure that way *)
Lemma bind_fail {A B} (m : outcome A) (f : A -> outcome B) : m <> Fail -> (forall a, f a <> Fail) -> bind m f <> Fail.
Proof. intros H K. destruct m; cbn; auto; discriminate. Qed.
Lemma get_fail l i : get l i <> Fail.
Proof. unfold get. destruct (i <? 0); [discriminate|]. destruct (nth_error _ _); discriminate. Qed.
Lemma get_range_fail l i j : get_range l i j <> Fail.
Proof. unfold get_range. destruct (_ <? 0); [discriminate|]. destruct (_ || _); discriminate. Qed.
Lemma set_nth_fail {A} (l : list A) i v : set_nth l i v <> Fail.
Proof. unfold set_nth. destruct (_ || _); discriminate. Qed.
Lemma get_dir_fail l i : get_dir l i <> Fail.
Proof. unfold get_dir. destruct (i <? 0); [discriminate|]. destruct (nth_error _ _); discriminate. Qed.
Lemma chk_fail v : chk v <> Fail.
Proof. unfold chk. destruct (is_int v); discriminate. Qed.
Lemma loop_fail {S R} (step : S -> outcome (S + R)) : (forall s, step s <> Fail) -> forall fuel s, loop fuel step s <> Fail.
Proof.
  intros H. induction fuel as [|n IH]; intros s; cbn [loop]; specialize (H s); destruct (step s) as [[s'|r]| | |]; cbn [bind]; auto; discriminate.
Qed.
Lemma loopZ_fail {S R} (step : S -> outcome (S + R)) n s : (forall s, step s <> Fail) -> loopZ n step s <> Fail.
Proof. intros H. rewrite loopZ_loop. now apply loop_fail. Qed.

Ltac nofail := repeat first
  [ discriminate | apply get_fail | apply get_range_fail | apply set_nth_fail | apply get_dir_fail | apply chk_fail
  | apply bind_fail; [|intros ?]
  | match goal with |- (match ?x with _ => _ end) <> Fail => destruct x end
  | progress unfold leave, continue_ ].

Lemma rest_blank_fail n : forall l i, rest_blank n l i <> Fail.
Proof. induction n as [|n IH]; intros l i; cbn [rest_blank]; [discriminate|]. nofail; auto. Qed.
Lemma filename_part_fail n : forall l o i, filename_part n l o i <> Fail.
Proof. induction n as [|n IH]; intros l o i; cbn [filename_part]; [discriminate|]. nofail; auto. apply rest_blank_fail. Qed.
Lemma next_entry_fail disk d : next_entry disk d <> Fail.
Proof. apply loopZ_fail. intros s. unfold next_entry_step. cbv zeta. nofail; apply filename_part_fail. Qed.
Lemma find_entry_fail disk name d : find_entry disk name d <> Fail.
Proof. apply loopZ_fail. intros s. unfold find_entry_step. apply bind_fail; [apply next_entry_fail|]. intros [[c|] d']; nofail. Qed.
Lemma is_entry_directory_fail d : is_entry_directory d <> Fail.
Proof. unfold is_entry_directory, entry_type. nofail. Qed.
Lemma open_directory_fail d e : open_directory d e <> Fail.
Proof. unfold open_directory, entry_first_sector. cbv zeta. nofail. Qed.
Lemma find_recursively_fail disk rest : forall part d, find_recursively disk part rest d <> Fail.
Proof.
  induction rest as [|c rest IH]; intros part d; cbn [find_recursively].
  - destruct (_ <? _); [discriminate|apply find_entry_fail].
  - destruct (_ =? _); [|apply IH]. destruct (_ <? _); [discriminate|]. apply bind_fail; [apply find_entry_fail|]. intros [b d1]. destruct (negb b); [discriminate|].
    apply bind_fail; [apply is_entry_directory_fail|]. intros b'. destruct (negb b'); [discriminate|]. apply bind_fail; [apply open_directory_fail|]. intros d2. apply IH.
Qed.

Lemma find_path disk path d : image_ok disk -> sector128 d ->
  exists d', find_entry_recursively disk path (open_root d) = Ok (match resolve disk [] path (entries disk root) with Some _ => true | None => false end, d')
    /\ forall e, resolve disk [] path (entries disk root) = Some e -> points d' e.
Proof.
  intros I [S1 S2]. pose proof (find_recursively_spec disk I path [] root (open_root d) (start_iter disk root _ S1 S2)) as W.
  unfold find_entry_recursively. pose proof (find_recursively_fail disk path [] (open_root d)) as NF.
  destruct (find_recursively disk [] path (open_root d)) as [[b d']| | |]; cbn [wp fst snd] in W; [|contradiction..].
  exists d'. destruct (resolve _ _ _ _) as [e|]; [destruct W as [-> P]|subst b]; (split; [reflexivity|]); intros e' E; congruence.
Qed.
