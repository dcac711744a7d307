(* Consequences for the STIL parser, and the texts that refute what it does not guarantee. *)
From Coq Require Import String.
From Verif Require Import Base BaseFacts Loop InfoModel WriterModel WriterProofs StilModel StilSpec StilProofs StilCovers StilLoad StilFind AatrList.

(* ---- ASTIL_Load always returns true or false ---- *)
Ltac no_fail := repeat first
  [ discriminate | simple apply get_fail | simple apply get_range_fail | simple apply set_nth_fail
  | match goal with |- bind _ _ <> Fail => apply bind_fail; [|intros ?] end
  | match goal with |- (match ?x with _ => _ end) <> Fail => destruct x end
  | progress unfold leave, continue_ ].
Lemma put_range_fail a i l : put_range a i l <> Fail.
Proof. unfold put_range. destruct (_ || _); discriminate. Qed.
Lemma starts_fail l p : starts l p <> Fail.
Proof. unfold starts. no_fail. Qed.
Lemma trimmed_fail n l : trimmed n l <> Fail.
Proof. induction n as [|n IH]; cbn [trimmed]; no_fail; auto. Qed.
Lemma read_line_fail f a : read_line f a <> Fail.
Proof.
  unfold read_line. generalize 0. revert a. induction f as [|c f IH]; intros a n; cbn [read_line_from]; [no_fail|]. no_fail; auto. apply trimmed_fail.
Qed.
Lemma string_at_fail s i : string_at s i <> Fail.
Proof. unfold string_at. induction (skipn (Z.to_nat i) s) as [|c l IH]; cbn [string_in]; no_fail; auto. Qed.
Lemma parse_int_fail s i : parse_int s i <> Fail.
Proof.
  unfold parse_int. generalize (length s). intros n. generalize i at 2. generalize 0. revert s i. induction n as [|n IH]; intros s i v j; cbn [parse_digits]; no_fail; auto.
Qed.
Lemma parse_timestamp_fail s i : parse_timestamp s i <> Fail.
Proof. unfold parse_timestamp. no_fail; apply parse_int_fail. Qed.
Lemma read_comment_fail f l c : read_comment f l c <> Fail.
Proof.
  unfold read_comment. no_fail; try apply read_line_fail; try apply starts_fail; try apply put_range_fail. apply loop_fail. intros s. unfold comment_step.
  no_fail; try apply read_line_fail; try apply starts_fail; try apply put_range_fail.
Qed.
Lemma match_filename_fail l n : forall i, match_filename l i n <> Fail.
Proof. induction n as [|x n IH]; intros i; cbn [match_filename]; no_fail; auto. Qed.
Lemma until_song_fail f l : until_song f l <> Fail.
Proof. apply loop_fail. intros s. unfold until_step. no_fail; apply read_line_fail. Qed.
Lemma cover_times_fail l : cover_times l <> Fail.
Proof. unfold cover_times. cbv zeta. no_fail; try apply string_at_fail; try apply parse_timestamp_fail; apply parse_int_fail. Qed.
Lemma set_text_fail a s : set_text a s <> Fail.
Proof. unfold set_text, strcpy. no_fail; apply put_range_fail. Qed.
Lemma cover_load_fail c f l : cover_load c f l <> Fail.
Proof.
  unfold cover_load. no_fail; try apply cover_times_fail; try apply string_at_fail; try apply set_text_fail; try apply read_line_fail; try apply starts_fail; apply read_comment_fail.
Qed.
Lemma get_cover_fail l i : get_cover l i <> Fail.
Proof. unfold get_cover. no_fail. Qed.
Lemma read_block_fail s f l : read_block s f l <> Fail.
Proof.
  unfold read_block. apply bind_fail.
  - apply loop_fail. intros x. unfold names_step, strcpy. no_fail; try apply starts_fail; try apply string_at_fail; try apply put_range_fail; apply read_line_fail.
  - intros [[[done s'] f'] l']. destruct done; [discriminate|]. apply loop_fail. intros x. unfold covers_step. cbv zeta.
    no_fail; try apply starts_fail; try apply get_cover_fail; apply cover_load_fail.
Qed.
Lemma previous_slash_fail n f : previous_slash n f <> Fail.
Proof. induction n as [|n IH]; cbn [previous_slash]; [discriminate|]. unfold cget. no_fail; auto. Qed.
Lemma find_stil_fail n fs f : forall p b, find_stil n fs f p b <> Fail.
Proof. induction n as [|n IH]; intros p b; cbn [find_stil]; no_fail; try apply put_range_fail; try apply string_at_fail; try apply previous_slash_fail; auto. Qed.
Lemma song_loop_fail n song s : loop n (song_step song) s <> Fail.
Proof.
  apply loop_fail. intros x. unfold song_step. no_fail; try apply parse_int_fail; try apply read_comment_fail; try apply read_block_fail; apply until_song_fail.
Qed.
Lemma astil_load_fail fs f song l s : astil_load fs f song l s <> Fail.
Proof.
  unfold astil_load. cbv zeta. no_fail; try apply previous_slash_fail; try apply put_range_fail; try apply find_stil_fail. apply loop_fail. intros x. unfold line_step. cbv zeta.
  no_fail; try apply read_line_fail; try apply match_filename_fail; try apply read_comment_fail; try apply song_loop_fail; apply read_block_fail.
Qed.

(* ---- without dangling times nothing is left to chance ---- *)
Lemma times_settled l b b' : prefixed "  TITLE: " l = true -> dangling l = false -> times l b = times l b'.
Proof.
  unfold dangling, times. intros Hp. rewrite Hp. cbn [andb]. destruct (last_paren _) as [k|]; [|reflexivity].
  destruct (range _) as [[s e] [r|]]; [reflexivity|discriminate].
Qed.

Lemma covers_settled n : forall ls bs bs', (forall l, In l ls -> dangling l = false) -> covers_of n ls bs = covers_of n ls bs'.
Proof.
  induction n as [|n IH]; intros ls bs bs' H; [reflexivity|]. destruct ls as [|l r]; [reflexivity|]. cbn [covers_of].
  destruct (prefixed "  TITLE: " l) eqn:Ep; [|reflexivity].
  assert (E : cover_of l r (hd false bs) = cover_of l r (hd false bs')).
  { unfold cover_of. now rewrite (times_settled l (hd false bs) (hd false bs') Ep (H l (or_introl eq_refl))). }
  rewrite E. pose proof (cover_of_incl l r (hd false bs')) as Hi. destruct (cover_of l r (hd false bs')) as [c r']. cbn [snd] in Hi. f_equal. apply IH.
  intros x Hx. apply H. right. apply Hi, Hx.
Qed.

Lemma names_incl ls : forall t a, incl (snd (names_of t a ls)) ls.
Proof.
  induction ls as [|l ls IH]; intros t a; cbn [names_of]; [apply incl_refl|]. destruct (prefixed _ l); [apply incl_tl, IH|]. destruct (prefixed _ l); [apply incl_tl, IH|apply incl_refl].
Qed.

Lemma after_song_incl song ls : forall r, after_song song ls = Some r -> incl r ls.
Proof.
  induction ls as [|l ls IH]; intros r E; cbn [after_song] in E; [discriminate|]. destruct (len l =? 0); [discriminate|].
  destruct (song_line song l); [|apply incl_tl, IH, E]. assert (r = ls) by congruence. subst r. apply incl_tl, incl_refl.
Qed.

Lemma entry_incl n dir path : forall dirc ls r, snd (entry n dir path dirc ls) = Some r -> incl r ls.
Proof.
  induction n as [|n IH]; intros dirc ls r E; cbn [entry] in E; [discriminate|]. destruct ls as [|l ls]; [discriminate|].
  destruct (same_path (cstr l) path); [cbn [snd] in E; assert (r = ls) by congruence; subst r; apply incl_tl, incl_refl|].
  destruct (same_path (cstr l) dir).
  - pose proof (comment_incl dirc ls) as Hc. destruct (comment dirc ls) as [c r']. cbn [snd] in Hc. specialize (IH c (tl r') r E).
    intros x Hx. right. apply Hc. specialize (IH x Hx). destruct r'; [exact IH|right; exact IH].
  - apply incl_tl. exact (IH dirc ls r E).
Qed.

Lemma block_settled d f s ls bs bs' : (forall l, In l ls -> dangling l = false) -> block d f s ls bs = block d f s ls bs'.
Proof.
  intros H. unfold block. pose proof (names_incl ls [] []) as Hi. destruct (names_of [] [] ls) as [[t a] r]. cbn [snd] in Hi.
  rewrite (covers_settled 10 r bs bs'); [reflexivity|]. intros l Hl. apply H, Hi, Hl.
Qed.

Lemma info_settled dir path song ls bs bs' : (forall l, In l ls -> dangling l = false) -> info_of dir path song ls bs = info_of dir path song ls bs'.
Proof.
  intros H. unfold info_of. pose proof (entry_incl (length ls) dir path [] ls) as He. destruct (entry _ dir path [] ls) as [dirc [r|]]; [|reflexivity].
  specialize (He r eq_refl). cbn [after_entry]. pose proof (comment_incl [] r) as Hc. destruct (comment [] r) as [filec r2]. cbn [snd] in Hc.
  destruct (prefixed "(#" (hd [] r2)).
  - pose proof (after_song_incl song r2) as Ha. destruct (after_song song r2) as [r3|]; [|reflexivity]. specialize (Ha r3 eq_refl).
    pose proof (comment_incl [] r3) as Hc2. destruct (comment [] r3) as [songc r4]. cbn [snd] in Hc2. apply block_settled. intros l Hl. apply H, He, Hc, Ha, Hc2, Hl.
  - apply block_settled. intros l Hl. apply H, He, Hc, Hl.
Qed.

(* ---- well-formed times ---- *)
(* 0 to 99 in one or two digits *)
Definition decimal (two : bool) (n : Z) : list Z := if two then [48 + n / 10; 48 + n mod 10] else [48 + n].
Definition writable (two : bool) (n : Z) : Prop := 0 <= n /\ if two then n < 100 else n < 10.

Lemma number_decimal two n r : writable two n -> digit (at_ r 0) = false -> number (decimal two n ++ r) = Some (n, r).
Proof.
  intros (H0 & H1) Hr. assert (Et : take_while digit r = [] /\ drop_while digit r = r).
  { destruct r as [|c r]; [split; reflexivity|]. rewrite at_cons_0 in Hr. cbn [take_while drop_while]. now rewrite Hr. }
  destruct Et as [Et Ed]. unfold number, decimal. destruct two; cbn [app take_while drop_while].
  - replace (digit (48 + n / 10)) with true by (unfold digit; lia). replace (digit (48 + n mod 10)) with true by (unfold digit; lia). rewrite Et, Ed.
    unfold value. cbn [fold_left]. assert (E : 10 * (10 * 0 + (48 + n / 10 - 48)) + (48 + n mod 10 - 48) = n) by lia. rewrite E. replace (n <? 100) with true by lia. reflexivity.
  - replace (digit (48 + n)) with true by (unfold digit; lia). rewrite Et, Ed. unfold value. cbn [fold_left].
    assert (E : 10 * 0 + (48 + n - 48) = n) by lia. rewrite E. replace (n <? 100) with true by lia. reflexivity.
Qed.

Definition stamp_text (two : bool) (m s : Z) : list Z := decimal two m ++ 58 :: decimal true s.

Lemma stamp_stamp two m s r : writable two m -> writable true s -> digit (at_ r 0) = false -> stamp (stamp_text two m s ++ r) = (60 * m + s, Some r).
Proof.
  intros Hm Hs Hr. unfold stamp, stamp_text. rewrite <- app_assoc. rewrite number_decimal; [|exact Hm|reflexivity]. cbn [app]. change (58 =? 58) with true. cbn iota.
  rewrite number_decimal by assumption. reflexivity.
Qed.

Lemma last_paren_none s : forallb (fun c => negb (c =? 40)) s = true -> last_paren s = None.
Proof.
  intros H. rewrite <- (app_nil_r s). rewrite last_paren_app by exact H. reflexivity.
Qed.

Lemma last_paren_here t s : forallb (fun c => negb (c =? 40)) s = true -> last_paren (t ++ 40 :: s) = Some (len t).
Proof.
  intros H. induction t as [|c t IH]; cbn [app last_paren].
  - rewrite (last_paren_none s H). reflexivity.
  - rewrite IH, len_cons. f_equal. lia.
Qed.

Lemma decimal_plain two n : writable two n -> forallb (fun c => negb (c =? 40) && negb (c =? 0)) (decimal two n) = true.
Proof. intros (H0 & H1). unfold decimal. destruct two; cbn [forallb]; lia. Qed.

Lemma title_times t s start finish b : t <> [] -> Forall (fun c => c <> 0) t -> forallb (fun c => negb (c =? 40) && negb (c =? 0)) s = true ->
  range (s ++ [41]) = (start, finish, Some [41]) ->
  times (str "  TITLE: " ++ t ++ [32; 40] ++ s ++ [41]) b = (start, finish, t).
Proof.
  intros Hne Ht Hs Hr. unfold times. change (field (str "  TITLE: " ++ t ++ [32; 40] ++ s ++ [41])) with (t ++ [32; 40] ++ s ++ [41]).
  assert (Hz : Forall (fun c => c <> 0) (t ++ [32; 40] ++ s ++ [41])).
  { apply Forall_app. split; [exact Ht|]. cbn [app]. constructor; [discriminate|]. constructor; [discriminate|]. apply Forall_app. split; [|constructor; [discriminate|constructor]].
    rewrite forallb_forall in Hs. rewrite Forall_forall. intros x Hx. specialize (Hs x Hx). lia. }
  rewrite (cstr_id _ Hz). replace (t ++ [32; 40] ++ s ++ [41]) with ((t ++ [32]) ++ 40 :: (s ++ [41])) by (rewrite <- !app_assoc; reflexivity).
  rewrite last_paren_here by (rewrite forallb_app; cbn [forallb]; rewrite andb_true_r; rewrite forallb_forall in *; intros x Hx; specialize (Hs x Hx); lia).
  rewrite len_app. change (len [32]) with 1. pose proof (len_nonneg t) as Hl. assert (0 < len t) by (destruct t; [congruence|rewrite len_cons; pose proof (len_nonneg t); lia]).
  assert (Esk : skipn (9 + Z.to_nat (len t + 1) + 1) (str "  TITLE: " ++ (t ++ [32]) ++ 40 :: s ++ [41]) = s ++ [41]).
  { rewrite (app_assoc (str "  TITLE: ")). replace ((str "  TITLE: " ++ t ++ [32]) ++ 40 :: s ++ [41]) with (((str "  TITLE: " ++ t ++ [32]) ++ [40]) ++ s ++ [41]) by (rewrite <- !app_assoc; reflexivity).
    apply skipn_app_exact. rewrite !app_length. change (length (str "  TITLE: ")) with 9%nat. cbn [length]. unfold len. lia. }
  rewrite Esk, Hr. change (closes [41]) with true. cbn iota. replace (len t + 1 =? 0) with false by lia.
  replace (len t + 1 - 1) with (len t) by lia.
  assert (Ea : at_ ((t ++ [32]) ++ 40 :: s ++ [41]) (len t) = 32).
  { rewrite <- app_assoc, at_app2 by lia. rewrite Z.sub_diag. reflexivity. }
  rewrite Ea. change (32 =? 32) with true. cbn iota. rewrite <- app_assoc. replace (Z.to_nat (len t)) with (length t) by (unfold len; lia).
  rewrite firstn_app_exact by reflexivity. reflexivity.
Qed.

Lemma title_start t two m s b : t <> [] -> Forall (fun c => c <> 0) t -> writable two m -> writable true s ->
  times (str "  TITLE: " ++ t ++ [32; 40] ++ stamp_text two m s ++ [41]) b = (60 * m + s, -1, t).
Proof.
  intros Hne Ht Hm Hs. apply title_times; [exact Hne|exact Ht| |].
  - unfold stamp_text. rewrite forallb_app. cbn [forallb]. now rewrite !decimal_plain by assumption.
  - unfold range. rewrite stamp_stamp by (try assumption; reflexivity). change (41 =? 45) with false. rewrite andb_false_r. reflexivity.
Qed.

Lemma title_range t two m s two2 m2 s2 b : t <> [] -> Forall (fun c => c <> 0) t -> writable two m -> writable true s -> writable two2 m2 -> writable true s2 ->
  times (str "  TITLE: " ++ t ++ [32; 40] ++ (stamp_text two m s ++ 45 :: stamp_text two2 m2 s2) ++ [41]) b = (60 * m + s, 60 * m2 + s2, t).
Proof.
  intros Hne Ht Hm Hs Hm2 Hs2. apply title_times; [exact Hne|exact Ht| |].
  - unfold stamp_text. rewrite !forallb_app. cbn [forallb]. rewrite forallb_app. cbn [forallb]. now rewrite !decimal_plain by assumption.
  - unfold range. rewrite <- app_assoc. rewrite stamp_stamp by (try assumption; reflexivity). cbn [app]. destruct Hm as (Hm & _), Hs as (Hs & _).
    replace ((0 <=? 60 * m + s) && (45 =? 45)) with true by lia. rewrite stamp_stamp by (try assumption; reflexivity). reflexivity.
Qed.

(* ---- where STIL.txt is looked for ---- *)
Lemma slashes_in l : forall i p, In p (slashes i l) <-> i <= p < i + len l /\ is_slash (at_ l (p - i)) = true.
Proof.
  induction l as [|c l IH]; intros i p; cbn [slashes].
  - change (len (@nil Z)) with 0. split; [intros []|]. intros (H & _). lia.
  - rewrite in_app_iff, IH, len_cons. pose proof (len_nonneg l). split.
    + intros [(H1 & H2)|H1].
      * split; [lia|]. rewrite at_cons_S by lia. replace (p - i - 1) with (p - (i + 1)) by lia. exact H2.
      * destruct (is_slash c) eqn:E; [|destruct H1]. destruct H1 as [<-|[]]. split; [lia|]. rewrite Z.sub_diag, at_cons_0. exact E.
    + intros (H1 & H2). destruct (Z.eq_dec p i) as [->|N].
      * right. rewrite Z.sub_diag, at_cons_0 in H2. rewrite H2. left. reflexivity.
      * left. split; [lia|]. rewrite at_cons_S in H2 by lia. replace (p - (i + 1)) with (p - i - 1) by lia. exact H2.
Qed.

(* ---- examples ---- *)
Definition lf : list Z := [10].
Fixpoint file_of (l : list string) : list Z := match l with [] => [] | s :: r => str s ++ lf ++ file_of r end.
Definition blank_cover : cover := mkCover 0 0 (repeat 7 101) (repeat 7 101) (repeat 7 1001).
Definition blank_stil (filename_max : nat) : stil :=
  mkStil 5 false (repeat 7 filename_max) (repeat 7 101) (repeat 7 101) (repeat 7 1001) (repeat 7 1001) (repeat 7 1001) (repeat blank_cover 10).
Lemma blank_sized n : sized (Z.of_nat n) (blank_stil n).
Proof.
  unfold sized, blank_stil. cbn [sl_filename sl_title sl_author sl_directory sl_file sl_song sl_covers]. rewrite !len_repeat.
  do 7 (split; [reflexivity|]). apply Forall_forall. intros c Hc. apply repeat_spec in Hc. subst c. unfold blank_cover, cover_sized. cbn [cv_title cv_artist cv_comment]. rewrite !len_repeat. auto.
Qed.
(* one file at one place *)
Definition only (name f : list Z) : list Z -> option (list Z) := fun n => if eqb_list n name then Some f else None.

(* a title of exactly 91 characters that ends in "(12" *)
Definition long_title : list Z := file_of ["/A/B.SAP"%string] ++ str "  TITLE: " ++ repeat 65 88 ++ str "(12" ++ lf.
(* a short one *)
Definition short_title : list Z := file_of ["/A/B.SAP"; "  TITLE: ABC (12"]%string.
(* the array as a previous function left it *)
Definition stale : list Z := repeat 7 17 ++ [41; 0] ++ repeat 7 82.
Definition song_name : list Z := str "/M/A/B.SAP".
Definition result_of (x : outcome (bool * stil)) : option (bool * info) := match x with Ok (b, s) => Some (b, view s) | _ => None end.

Lemma long_title_reads : astil_load (only (str "/M/STIL.txt") long_title) song_name 0 (repeat 7 101) (blank_stil 60) = UB UbRead.
Proof. vm_compute. reflexivity. Qed.
Lemma short_title_unset : result_of (astil_load (only (str "/M/STIL.txt") short_title) song_name 0 (repeat 7 101) (blank_stil 60)) =
  Some (true, mkInfo [] [] [] [] [] [(-1, -1, str "ABC (12", [], [])]).
Proof. vm_compute. reflexivity. Qed.
Lemma short_title_stale : result_of (astil_load (only (str "/M/STIL.txt") short_title) song_name 0 stale (blank_stil 60)) =
  Some (true, mkInfo [] [] [] [] [] [(-1, -1, str "ABC", [], [])]).
Proof. vm_compute. reflexivity. Qed.

Definition stil_txt : list Z := [239; 187; 191] ++ file_of
  ["### comment"; ""; "/A/"; "COMMENT: All of A"; "         and more."; ""; "/A/C.SAP"; "   NAME: Wrong"; ""; "/A/B.SAP"; "COMMENT: The file"; "(#1)"; "   NAME: First"; "(#2)"; "COMMENT: The song"; "   NAME: Second  ";
   " AUTHOR: Someone"; "  TITLE: Some Tune [from Some Game] (0:10-1:05)"; " ARTIST: Somebody Else"; "COMMENT: Cover"; "  TITLE: <?>"; " ARTIST: <?>"; "  TITLE: (0:10)"; ""; "/A/D.SAP"]%string.
Lemma stil_txt_loaded : result_of (astil_load (only (str "/M/Docs/STIL.txt") stil_txt) song_name 1 (repeat 7 101) (blank_stil 60)) =
  Some (true, mkInfo (str "Second") (str "Someone") (str "All of A" ++ lf ++ str "and more.") (str "The file") (str "The song")
    [(10, 65, str "Some Tune [from Some Game]", str "Somebody Else", str "Cover"); (-1, -1, [], [], []); (10, -1, str "(0:10)", [], [])]).
Proof. vm_compute. reflexivity. Qed.
