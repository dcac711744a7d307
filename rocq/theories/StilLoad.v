(* Facts about the STIL parser: the whole of ASTIL_Load. *)
From Coq Require Import String.
From Verif Require Import Base BaseFacts Loop InfoModel WriterModel WriterProofs StoreProofs StilModel StilSpec StilProofs StilCovers.

Lemma continued_incl ls : forall t, incl (snd (continued t ls)) ls.
Proof.
  induction ls as [|l ls IH]; intros t; cbn [continued]; [apply incl_refl|]. destruct (prefixed _ l); [|apply incl_refl].
  apply incl_tl, IH.
Qed.

Lemma comment_incl old ls : incl (snd (comment old ls)) ls.
Proof. destruct ls as [|l ls]; cbn [comment]; [apply incl_refl|]. destruct (prefixed _ l); [apply incl_tl, continued_incl|apply incl_refl]. Qed.

Lemma continued_le ls : forall t, (length (snd (continued t ls)) <= length ls)%nat.
Proof. induction ls as [|l ls IH]; intros t; cbn [continued]; [auto|]. destruct (prefixed _ l); [|auto]. cbn [length]. specialize (IH (if len t <? 900 then t ++ 10 :: field l else t)). lia. Qed.

Lemma comment_le old ls : (length (snd (comment old ls)) <= length ls)%nat.
Proof. destruct ls as [|l ls]; cbn [comment]; [auto|]. destruct (prefixed _ l); [|auto]. cbn [length]. pose proof (continued_le ls (field l)). lia. Qed.

Lemma set_text_ok a t : len a = 101 -> len t <= 100 -> Forall (fun c => c <> 0) t -> exists a', set_text a t = Ok a' /\ len a' = 101 /\ cstr a' = known t.
Proof.
  intros Ha Ht Hz. unfold set_text, known. destruct (eqb_list t (str "<?>")).
  - destruct (set_0 101 a Ha eq_refl) as (a' & E & H). exists a'. repeat split; [exact E|apply H|apply (holds_cstr _ _ _ H)].
  - destruct (strcpy_ok 101 a t Ha) as (a' & E & H); [lia|]. exists a'. repeat split; [exact E|apply H|]. rewrite (holds_cstr _ _ _ H). now apply cstr_id.
Qed.

Lemma times_nz l b s e t : times l b = (s, e, t) -> Forall (fun c => c <> 0) t.
Proof.
  unfold times. intros E. pose proof (cstr_nonzero (field l)) as Hz. destruct (last_paren _) as [k|]; [|congruence].
  destruct (range _) as [[s' e'] o]. destruct (match o with Some r => closes r | None => b end); [|congruence].
  destruct (k =? 0); [congruence|].
  assert (Et : t = firstn (Z.to_nat (if at_ (cstr (field l)) (k - 1) =? 32 then k - 1 else k)) (cstr (field l))) by congruence.
  rewrite Et. clear - Hz. revert Hz. generalize (Z.to_nat (if at_ (cstr (field l)) (k - 1) =? 32 then k - 1 else k)). intros n.
  generalize (cstr (field l)). intros m. revert n. induction m as [|c m IH]; intros [|n] Hz; cbn [firstn]; try constructor; inversion Hz; auto.
Qed.

Section Load.
Variable all : list (list Z).          (* the lines of the file *)
Hypothesis all_short : short all.
Notation too_long := (too_long all).

(* ---- one cover ---- *)
Lemma cover_load_ok c f line l r : current f line (l :: r) -> incl (l :: r) all -> prefixed "  TITLE: " l = true -> cover_sized c ->
  wpg too_long False (cover_load c f line) (fun x => let '(c', f', line') := x in
    cover_sized c' /\ (length f' <= length f)%nat /\ exists b, cover_view c' = fst (cover_of l r b) /\ current f' line' (snd (cover_of l r b))).
Proof.
  intros (Hh & Hf) Hin Hp (Hc1 & Hc2 & Hc3). cbn [hd tl] in Hh, Hf. unfold cover_load. apply wpg_bind.
  eapply wpg_mono; [apply (cover_times_ok all line l Hh); [apply Hin; left; reflexivity|exact Hp]|].
  intros [[start finish] line'] (Hl' & b & t & Et & Etimes & Htl). rewrite Et. cbn [bind].
  destruct (set_text_ok (cv_title c) t Hc1) as (title & E1 & Hl1 & Ht1); [lia|exact (times_nz _ _ _ _ _ Etimes)|]. rewrite E1. cbn [bind].
  destruct (set_0 101 (cv_artist c) Hc2 eq_refl) as (artist & E2 & H2). rewrite E2. cbn [bind].
  destruct (set_0 1001 (cv_comment c) Hc3 eq_refl) as (comm & E3 & H3). rewrite E3. cbn [bind].
  destruct (read_line_current f line' r Hl' Hf) as (f2 & line2 & E4 & Hcur & Hle & _). rewrite E4. cbn [bind].
  pose proof Hcur as (Hh2 & Hf2).
  rewrite (guarded line2 (hd [] r) " ARTIST: " _ Hh2 eq_refl ltac:(solve_nz) (size_hd r)). cbn [bind].
  assert (H100 : len (hd [] r) <= 100) by (apply short_hd; intros x Hx; apply all_short, Hin; right; exact Hx).
  destruct (prefixed " ARTIST: " (hd [] r)) eqn:Ea.
  - destruct r as [|a r']; [discriminate Ea|]. cbn [hd tl] in *. pose proof (prefixed_len _ _ Ea) as H9. change (len (str " ARTIST: ")) with 9 in H9.
    rewrite (field_string _ _ _ Hh2) by lia. cbn [bind].
    destruct (set_text_ok artist (cstr (field a)) (proj1 H2)) as (artist' & E5 & Hl5 & Ht5); [pose proof (len_cstr (field a)); rewrite field_len in * by lia; lia|apply cstr_nonzero|].
    rewrite E5. cbn [bind].
    destruct (read_comment_ok f2 line2 comm r' [] (proj1 Hh2) Hf2 (proj1 H3) (holds_cstr _ _ _ H3)) as (f3 & line3 & comm' & E6 & Hcur3 & Hl6 & Ht6 & Hle3).
    rewrite E6. cbn [bind wpg]. split; [repeat split; assumption|]. split; [lia|]. exists b. unfold cover_of. rewrite Etimes, Ea.
    destruct (comment [] r') as [cm r'']. cbn [fst snd] in *. split; [|exact Hcur3]. unfold cover_view. cbn [cv_start cv_end cv_title cv_artist cv_comment]. congruence.
  - cbn [wpg]. split; [repeat split; [exact Hl1|apply H2|apply H3]|]. split; [lia|]. exists b. unfold cover_of. rewrite Etimes.
    assert (Hv : cover_view (mkCover start finish title artist comm) = (start, finish, known t, [], [])).
    { unfold cover_view. cbn [cv_start cv_end cv_title cv_artist cv_comment]. rewrite (holds_cstr _ _ _ H2), (holds_cstr _ _ _ H3), Ht1. reflexivity. }
    destruct r as [|a r']; [split; assumption|]. cbn [hd] in Ea. rewrite Ea. split; assumption.
Qed.

Lemma cover_of_incl l r b : incl (snd (cover_of l r b)) r.
Proof.
  unfold cover_of. destruct (times l b) as [[s e] t]. destruct r as [|a r']; [apply incl_refl|]. destruct (prefixed _ a); [|apply incl_refl].
  pose proof (comment_incl [] r') as H. destruct (comment [] r') as [cm r'']. cbn [snd] in *. apply incl_tl, H.
Qed.

(* ---- covers ---- *)
Definition keeps (s s' : stil) : Prop :=
  sl_filename s' = sl_filename s /\ sl_utf8 s' = sl_utf8 s /\ sl_title s' = sl_title s /\ sl_author s' = sl_author s /\
  sl_directory s' = sl_directory s /\ sl_file s' = sl_file s /\ sl_song s' = sl_song s.
Definition covers_view (s : stil) : list cover_info := map cover_view (firstn (Z.to_nat (sl_nCovers s)) (sl_covers s)).

Lemma get_cover_ok l i : 0 <= i < len l -> exists c, get_cover l i = Ok c /\ nth_error l (Z.to_nat i) = Some c.
Proof.
  intros Hi. unfold get_cover. replace (i <? 0) with false by lia. destruct (nth_error l (Z.to_nat i)) as [c|] eqn:E; [exists c; auto|].
  apply nth_error_None in E. unfold len in Hi. lia.
Qed.

Lemma firstn_upd {A} (l : list A) n v : (n < length l)%nat -> firstn (S n) (upd l n v) = firstn n l ++ [v].
Proof.
  revert n. induction l as [|x l IH]; intros n Hn; [cbn in Hn; lia|]. destruct n as [|n]; [reflexivity|]. cbn [upd firstn app]. f_equal. apply IH. cbn in Hn. lia.
Qed.

Lemma Forall_upd {A} (P : A -> Prop) l n v : Forall P l -> P v -> Forall P (upd l n v).
Proof. intros H Hv. revert n. induction H; intros [|n]; cbn [upd]; constructor; auto. Qed.

Lemma covers_loop N n : forall self f line ls, sized N self -> sl_nCovers self = 10 - Z.of_nat n -> (n <= 10)%nat -> current f line ls -> incl ls all ->
  wpg too_long False (loop n covers_step (self, f, line)) (fun x => let '(self', f', line') := x in
    sized N self' /\ keeps self self' /\ exists bs, covers_view self' = covers_view self ++ covers_of n ls bs).
Proof.
  induction n as [|n IH]; intros self f line ls Hs Hn H10 Hc Hin.
  - cbn [loop]. unfold covers_step. rewrite Hn. change (10 - Z.of_nat 0 <? max_covers) with false. cbn [bind wpg leave]. split; [exact Hs|]. split; [repeat split|].
    exists []. cbn [covers_of]. now rewrite app_nil_r.
  - cbn [loop]. apply wpg_bind. unfold covers_step. rewrite Hn. unfold max_covers. replace (10 - Z.of_nat (S n) <? 10) with true by lia.
    pose proof Hc as (Hh & Hf). rewrite (starts_ok line (hd [] ls) "  TITLE: " Hh) by (cbn [str length]; try lia; solve_nz). cbn [bind].
    destruct (prefixed "  TITLE: " (hd [] ls)) eqn:Ep.
    + destruct ls as [|l r]; [discriminate Ep|]. cbn [hd tl] in *. pose proof Hs as (Hs1 & Hs2 & Hs3 & Hs4 & Hs5 & Hs6 & Hs7 & Hs8).
      destruct (get_cover_ok (sl_covers self) (10 - Z.of_nat (S n))) as (c & E & Enth); [lia|]. rewrite E. cbn [bind]. apply wpg_bind.
      assert (Hcs : cover_sized c) by (rewrite Forall_forall in Hs8; apply Hs8; eapply nth_error_In; exact Enth).
      eapply wpg_mono; [apply (cover_load_ok c f line l r Hc Hin Ep Hcs)|]. intros [[c' f'] line'] (Hc' & Hle & b & Hv & Hcur).
      unfold set_nth. replace ((10 - Z.of_nat (S n) <? 0) || (len (sl_covers self) <=? 10 - Z.of_nat (S n))) with false by lia. cbn [bind wpg continue_].
      set (self1 := set_covers self (10 - Z.of_nat (S n) + 1) (upd (sl_covers self) (Z.to_nat (10 - Z.of_nat (S n))) c')).
      assert (Hs' : sized N self1).
      { unfold self1, sized, set_covers. cbn [sl_filename sl_title sl_author sl_directory sl_file sl_song sl_covers]. rewrite len_upd.
        do 7 (split; [assumption|]). now apply Forall_upd. }
      eapply wpg_mono.
      * apply (IH self1 f' line' (snd (cover_of l r b)) Hs'); [unfold self1; cbn [set_covers sl_nCovers]; lia|lia|exact Hcur|].
        eapply incl_tran; [apply cover_of_incl|]. intros x Hx. apply Hin. right. exact Hx.
      * intros [[self' f''] line''] (H1 & H2 & bs & H3). split; [exact H1|]. split; [exact H2|]. exists (b :: bs).
        rewrite H3. cbn [covers_of]. rewrite Ep. cbn [hd tl]. rewrite (surjective_pairing (cover_of l r b)).
        unfold covers_view, self1. cbn [set_covers sl_nCovers sl_covers].
        rewrite Hn. replace (Z.to_nat (10 - Z.of_nat (S n) + 1)) with (S (Z.to_nat (10 - Z.of_nat (S n)))) by lia.
        rewrite firstn_upd by (unfold len in Hs7; lia). rewrite map_app, <- app_assoc. cbn [map app]. now rewrite Hv.
    + cbn [wpg leave]. split; [exact Hs|]. split; [repeat split|]. exists []. destruct ls as [|l r]; cbn [covers_of hd] in *; [|rewrite Ep]; now rewrite app_nil_r.
Qed.

(* ---- names ---- *)
Definition keeps2 (s s' : stil) : Prop :=
  sl_filename s' = sl_filename s /\ sl_utf8 s' = sl_utf8 s /\ sl_nCovers s' = sl_nCovers s /\ sl_covers s' = sl_covers s /\
  sl_directory s' = sl_directory s /\ sl_file s' = sl_file s /\ sl_song s' = sl_song s.

Lemma not_prefixed p l : length (str p) = 9%nat -> len l < 9 -> prefixed p l = false.
Proof. intros Hp Hl. destruct (prefixed p l) eqn:E; [|reflexivity]. apply prefixed_len in E. unfold len at 1 in E. lia. Qed.

Lemma names_loop N ls : forall self f line fuel, sized N self -> current f line ls -> incl ls all -> (length f <= fuel)%nat ->
  wpg too_long False (loop fuel names_step (self, f, line)) (fun x => let '(done, self', f', line') := x in
    sized N self' /\ keeps2 self self' /\ current f' line' (snd (names_of (cstr (sl_title self)) (cstr (sl_author self)) ls)) /\
    (cstr (sl_title self'), cstr (sl_author self')) = fst (names_of (cstr (sl_title self)) (cstr (sl_author self)) ls) /\
    incl (snd (names_of (cstr (sl_title self)) (cstr (sl_author self)) ls)) all /\
    (done = true -> len (hd [] (snd (names_of (cstr (sl_title self)) (cstr (sl_author self)) ls))) < 9)).
Proof.
  induction ls as [|l ls IH]; intros self f line fuel Hs Hc Hin Hf; pose proof Hc as (Hh & Hfl); cbn [hd tl] in Hh, Hfl.
  - assert (E : names_step (self, f, line) = leave (false, self, f, line)).
    { unfold names_step. rewrite (starts_ok line [] "   NAME: " Hh), (starts_ok line [] " AUTHOR: " Hh) by (cbn [str length]; try lia; solve_nz). reflexivity. }
    assert (E' : loop fuel names_step (self, f, line) = Ok (false, self, f, line)) by (destruct fuel; cbn [loop]; rewrite E; reflexivity).
    rewrite E'. cbn [wpg names_of fst snd]. split; [exact Hs|]. split; [repeat split|]. split; [exact Hc|]. split; [reflexivity|]. split; [exact Hin|discriminate].
  - assert (H100 : len l <= 100) by (apply all_short, Hin; left; reflexivity).
    (* after storing the name *)
    assert (Hgo : forall self', sized N self' -> keeps2 self self' -> names_of (cstr (sl_title self)) (cstr (sl_author self)) (l :: ls) = names_of (cstr (sl_title self')) (cstr (sl_author self')) ls ->
      names_step (self, f, line) = ('(n, f, line) <- read_line f line ;; if n <? 9 then leave (true, self', f, line) else continue_ (self', f, line)) ->
      wpg too_long False (loop fuel names_step (self, f, line)) (fun x => let '(done, self', f', line') := x in
        sized N self' /\ keeps2 self self' /\ current f' line' (snd (names_of (cstr (sl_title self)) (cstr (sl_author self)) (l :: ls))) /\
        (cstr (sl_title self'), cstr (sl_author self')) = fst (names_of (cstr (sl_title self)) (cstr (sl_author self)) (l :: ls)) /\
        incl (snd (names_of (cstr (sl_title self)) (cstr (sl_author self)) (l :: ls))) all /\
        (done = true -> len (hd [] (snd (names_of (cstr (sl_title self)) (cstr (sl_author self)) (l :: ls)))) < 9))).
    { intros self' Hs' Hk En E. rewrite En. destruct (read_line_current f line ls (proj1 Hh) Hfl) as (f2 & line2 & E2 & Hcur & Hle & Hlt).
      rewrite E2 in E. cbn [bind] in E.
      assert (Hin' : incl ls all) by (intros x Hx; apply Hin; right; exact Hx).
      destruct (size ls <? 9) eqn:E9.
      - assert (E' : loop fuel names_step (self, f, line) = Ok (true, self', f2, line2)) by (destruct fuel; cbn [loop]; rewrite E; reflexivity).
        rewrite E'. cbn [wpg]. split; [exact Hs'|]. split; [exact Hk|].
        assert (H9 : len (hd [] ls) < 9) by (destruct (size_hd ls) as [Hz|[_ Hz]]; [lia|rewrite Hz, len_nil; lia]).
        assert (Eno : names_of (cstr (sl_title self')) (cstr (sl_author self')) ls = (cstr (sl_title self'), cstr (sl_author self'), ls)).
        { destruct ls as [|l2 ls2]; [reflexivity|]. cbn [hd] in H9. cbn [names_of]. rewrite !not_prefixed by (try reflexivity; exact H9). reflexivity. }
        rewrite Eno. cbn [fst snd]. auto.
      - assert (Hne : ls <> []) by (intros ->; cbn [size] in E9; lia). specialize (Hlt Hne).
        destruct fuel as [|fuel]; [lia|]. cbn [loop]. rewrite E. unfold continue_. cbn [bind].
        eapply wpg_mono; [apply (IH self' f2 line2 fuel Hs' Hcur Hin' ltac:(lia))|].
        intros [[[done self''] f''] line''] (H1 & H2 & H3). split; [exact H1|]. split; [|exact H3].
        destruct Hk as (K1 & K2 & K3 & K4 & K5 & K6 & K7), H2 as (L1 & L2 & L3 & L4 & L5 & L6 & L7). repeat split; congruence. }
    pose proof Hs as (Hs1 & Hs2 & Hs3 & Hs4 & Hs5 & Hs6 & Hs7 & Hs8).
    assert (Hstep : names_step (self, f, line) =
      (if prefixed "   NAME: " l || prefixed " AUTHOR: " l then
        text <- string_at line 9 ;;
        self <- (if prefixed "   NAME: " l then t <- strcpy (sl_title self) text ;; Ok (set_title self t)
                 else t <- strcpy (sl_author self) text ;; Ok (set_author self t)) ;;
        '(n, f, line) <- read_line f line ;;
        if n <? 9 then leave (true, self, f, line) else continue_ (self, f, line)
      else leave (false, self, f, line))).
    { unfold names_step. rewrite (starts_ok line l "   NAME: " Hh), (starts_ok line l " AUTHOR: " Hh) by (cbn [str length]; try lia; solve_nz).
      cbn [bind]. destruct (prefixed "   NAME: " l); cbn [bind orb]; [reflexivity|]. destruct (prefixed " AUTHOR: " l); reflexivity. }
    destruct (prefixed "   NAME: " l) eqn:En.
    + pose proof (prefixed_len _ _ En) as H9. change (len (str "   NAME: ")) with 9 in H9.
      rewrite (field_string _ _ _ Hh) in Hstep by lia. cbn [bind orb] in Hstep.
      destruct (strcpy_ok 101 (sl_title self) (cstr (field l)) Hs2) as (t & Et & Ht); [pose proof (len_cstr (field l)); rewrite field_len in * by lia; lia|].
      rewrite Et in Hstep. cbn [bind] in Hstep.
      apply (Hgo (set_title self t)); [|repeat split| |exact Hstep].
      * unfold sized, set_title. cbn [sl_filename sl_title sl_author sl_directory sl_file sl_song sl_covers]. destruct Ht as (Ht & _). auto 10.
      * cbn [names_of]. rewrite En. unfold set_title. cbn [sl_title sl_author]. rewrite (holds_cstr _ _ _ Ht), cstr_cstr. reflexivity.
    + destruct (prefixed " AUTHOR: " l) eqn:Ea.
      * pose proof (prefixed_len _ _ Ea) as H9. change (len (str " AUTHOR: ")) with 9 in H9.
        rewrite (field_string _ _ _ Hh) in Hstep by lia. cbn [bind orb] in Hstep.
        destruct (strcpy_ok 101 (sl_author self) (cstr (field l)) Hs3) as (t & Et & Ht); [pose proof (len_cstr (field l)); rewrite field_len in * by lia; lia|].
        rewrite Et in Hstep. cbn [bind] in Hstep.
        apply (Hgo (set_author self t)); [|repeat split| |exact Hstep].
        -- unfold sized, set_author. cbn [sl_filename sl_title sl_author sl_directory sl_file sl_song sl_covers]. destruct Ht as (Ht & _). auto 10.
        -- cbn [names_of]. rewrite En, Ea. unfold set_author. cbn [sl_title sl_author]. rewrite (holds_cstr _ _ _ Ht), cstr_cstr. reflexivity.
      * cbn [orb] in Hstep. assert (E' : loop fuel names_step (self, f, line) = Ok (false, self, f, line)) by (destruct fuel; cbn [loop]; rewrite Hstep; reflexivity).
        rewrite E'. cbn [wpg names_of]. rewrite En, Ea. cbn [fst snd]. split; [exact Hs|]. split; [repeat split|]. split; [exact Hc|]. split; [reflexivity|]. split; [exact Hin|discriminate].
Qed.

(* ---- a block ---- *)
Definition keeps3 (s s' : stil) : Prop :=
  sl_filename s' = sl_filename s /\ sl_utf8 s' = sl_utf8 s /\
  sl_directory s' = sl_directory s /\ sl_file s' = sl_file s /\ sl_song s' = sl_song s.
(* nothing has been read for the song yet *)
Definition fresh (s : stil) : Prop := cstr (sl_title s) = [] /\ cstr (sl_author s) = [] /\ sl_nCovers s = 0.

Lemma block_ok N self f line ls dirc filec songc : sized N self -> fresh self -> current f line ls -> incl ls all ->
  cstr (sl_directory self) = cstr dirc -> cstr (sl_file self) = cstr filec -> cstr (sl_song self) = cstr songc ->
  wpg too_long False (read_block self f line) (fun x => let '(self', f', line') := x in
    sized N self' /\ keeps3 self self' /\ exists bs, view self' = block dirc filec songc ls bs).
Proof.
  intros Hs (Hf1 & Hf2 & Hf3) Hc Hin Hd Hfile Hsong. unfold read_block. apply wpg_bind.
  eapply wpg_mono; [apply (names_loop N ls self f line (length f) Hs Hc Hin); lia|].
  intros [[[done self'] f'] line'] (H1 & H2 & H3 & H4 & H5 & H6). rewrite Hf1, Hf2 in *. unfold block.
  destruct (names_of [] [] ls) as [[title author] r]. cbn [fst snd] in *. destruct H2 as (K1 & K2 & K3 & K4 & K5 & K6 & K7).
  destruct done.
  - cbn [wpg]. split; [exact H1|]. split; [repeat split; assumption|]. exists []. specialize (H6 eq_refl). unfold view. rewrite K3, K4, K5, K6, K7, Hf3, Hd, Hfile, Hsong.
    cbn [firstn Z.to_nat map]. assert (Ec : covers_of 10 r [] = []).
    { destruct r as [|l2 r2]; [reflexivity|]. cbn [hd] in H6. cbn [covers_of]. rewrite not_prefixed by (try reflexivity; exact H6). reflexivity. }
    rewrite Ec. congruence.
  - eapply wpg_mono; [apply (covers_loop N 10 self' f' line' r H1); [rewrite K3, Hf3; reflexivity|lia|exact H3|exact H5]|].
    intros [[self2 f2] line2] (L1 & L2 & bs & L3). split; [exact L1|]. destruct L2 as (M1 & M2 & M3 & M4 & M5 & M6 & M7).
    split; [repeat split; congruence|]. exists bs. unfold covers_view in L3. rewrite K3, K4, Hf3 in L3. cbn [Z.to_nat firstn map app] in L3.
    unfold view. rewrite L3, M3, M4, M5, M6, M7, K5, K6, K7, Hd, Hfile, Hsong. congruence.
Qed.

(* ---- songs ---- *)
Lemma until_ok song ls : forall f line fuel, len line = 101 -> lines f = ls -> (length f <= fuel)%nat -> exists again f' line',
  loop fuel until_step (f, line) = Ok (again, f', line') /\
  if again then exists ls', current f' line' ls' /\ prefixed "(#" (hd [] ls') = true /\ after_song song ls = after_song song ls' /\ incl ls' ls /\ (length f' < length f)%nat
  else after_song song ls = None /\ len line' = 101.
Proof.
  induction ls as [|l ls IH]; intros f line fuel Hl E Hf.
  - destruct (read_line_current f line [] Hl E) as (f' & line' & Er & Hc & Hle & _). exists false, f', line'.
    assert (Es : until_step (f, line) = leave (false, f', line')) by (unfold until_step; rewrite Er; reflexivity).
    split; [destruct fuel; cbn [loop]; rewrite Es; reflexivity|]. split; [reflexivity|apply Hc].
  - destruct (read_line_current f line (l :: ls) Hl E) as (f' & line' & Er & Hc & Hle & Hlt). specialize (Hlt ltac:(discriminate)). pose proof Hc as (Hh & Hfl). cbn [hd tl] in Hh, Hfl.
    destruct (0 <? len l) eqn:E0.
    + assert (Es : until_step (f, line) = if prefixed "(#" l then leave (true, f', line') else continue_ (f', line')).
      { unfold until_step. rewrite Er. cbn [bind size]. rewrite E0. rewrite (holds_get _ _ _ 0 Hh) by lia. cbn [bind].
        destruct l as [|c0 l]; [discriminate E0|]. rewrite at_cons_0. unfold prefixed. change (str "(#") with [40; 35]. cbn [length].
        destruct (c0 =? 40) eqn:Ec0.
        - rewrite (holds_get _ _ _ 1 Hh) by (rewrite len_cons; pose proof (len_nonneg l); lia). cbn [bind andb].
          rewrite at_cons_S by lia. change (1 - 1) with 0. assert (c0 = 40) by lia. subst c0.
          destruct l as [|c1 l]; [reflexivity|]. rewrite at_cons_0. cbn [firstn].
          destruct (c1 =? 35) eqn:Ec1.
          + assert (c1 = 35) by lia. subst c1. reflexivity.
          + destruct (eqb_list [40; c1] [40; 35]) eqn:Eq; [|reflexivity]. rewrite eqb_list_spec in Eq. assert (c1 = 35) by congruence. lia.
        - cbn [bind andb]. destruct (eqb_list (firstn 2 (c0 :: l)) [40; 35]) eqn:Eq; [|reflexivity]. rewrite eqb_list_spec in Eq. cbn [firstn] in Eq. assert (c0 = 40) by congruence. lia. }
      destruct (prefixed "(#" l) eqn:Ep.
      * exists true, f', line'. split; [destruct fuel; cbn [loop]; rewrite Es; reflexivity|]. exists (l :: ls). repeat split; try apply Hc; [exact Ep|apply incl_refl|exact Hlt].
      * destruct fuel as [|fuel]; [lia|]. destruct (IH f' line' fuel (proj1 Hh) Hfl ltac:(lia)) as (again & f2 & line2 & E2 & H2). exists again, f2, line2.
        split; [cbn [loop]; rewrite Es; unfold continue_; cbn [bind]; exact E2|].
        assert (Ea : after_song song (l :: ls) = after_song song ls).
        { cbn [after_song]. replace (len l =? 0) with false by lia. unfold song_line. rewrite Ep. reflexivity. }
        rewrite Ea. destruct again; [|exact H2]. destruct H2 as (ls' & H2 & H3 & H4 & H5 & H6). exists ls'. repeat split; try assumption; try apply H2; [apply incl_tl, H5|lia].
    + exists false, f', line'. pose proof (len_nonneg l).
      assert (Es : until_step (f, line) = leave (false, f', line')) by (unfold until_step; rewrite Er; cbn [bind size]; rewrite E0; reflexivity).
      split; [destruct fuel; cbn [loop]; rewrite Es; reflexivity|]. split; [|apply Hh]. cbn [after_song]. replace (len l =? 0) with true by lia. reflexivity.
Qed.

Lemma at_skipn l n i : 0 <= i -> at_ (skipn n l) i = at_ l (Z.of_nat n + i).
Proof.
  intros Hi. unfold at_. replace (Z.to_nat (Z.of_nat n + i)) with (n + Z.to_nat i)%nat by lia. clear Hi.
  revert l. induction n as [|n IH]; intros l; [reflexivity|]. destruct l; [cbn [skipn]; destruct (Z.to_nat i); reflexivity|]. cbn [skipn Nat.add nth]. apply IH.
Qed.

(* the test of one "(#" line *)
Lemma song_test song line l : 0 <= song -> holds 101 line l -> prefixed "(#" l = true ->
  exists i v, parse_int line 2 = Ok (v, i) /\ exists c, (if v - 1 =? song then get line i else Ok 0) = Ok c /\
    exists c1, (if c =? 41 then get line (i + 1) else Ok 1) = Ok c1 /\ (c =? 41) && (c1 =? 0) = song_line song l.
Proof.
  intros H0 Hh Hp. pose proof (prefixed_len _ _ Hp) as H2. change (len (str "(#")) with 2 in H2.
  assert (Hw : where_ l 2 (Some (skipn 2 l))) by (split; [lia|reflexivity]).
  pose proof (parse_int_ok line l 2 _ Hh Hw) as H. unfold song_line. rewrite Hp. cbn [andb]. destruct (number (skipn 2 l)) as [[v r]|].
  - destruct H as (p & E & (Hp1 & Hp2) & Hlt & Hv). exists p, v. split; [exact E|]. rewrite (holds_get _ _ _ p Hh) by lia.
    replace (v =? song + 1) with (v - 1 =? song) by lia. destruct (v - 1 =? song) eqn:Es.
    + eexists. split; [reflexivity|]. destruct r as [|c r].
      * rewrite at_end by (rewrite (skipn_nil_at _ _ Hp1 Hp2); lia). exists 1. split; reflexivity.
      * destruct (skipn_cons_at _ _ _ _ (proj1 Hp1) Hp2) as [Ea Hlt']. rewrite Ea. cbn [closes andb]. destruct (c =? 41); [|exists 1; split; reflexivity].
        rewrite (holds_get _ _ _ (p + 1) Hh) by lia. eexists. split; [reflexivity|]. cbn [andb].
        pose proof (skipn_1 _ _ _ _ Hp2) as Hr. assert (Eat : at_ r 0 = at_ l (p + 1)) by (rewrite <- Hr, at_skipn by lia; f_equal; lia).
        now rewrite Eat.
    + exists 0. split; [reflexivity|]. exists 1. split; reflexivity.
  - exists 2, (-1). split; [exact H|]. replace (-1 - 1 =? song) with false by lia. exists 0. split; [reflexivity|]. exists 1. split; reflexivity.
Qed.

Lemma song_loop N song self dirc filec : 0 <= song -> sized N self -> fresh self ->
  cstr (sl_directory self) = cstr dirc -> cstr (sl_file self) = cstr filec -> cstr (sl_song self) = [] ->
  forall fuel f line ls, current f line ls -> incl ls all -> prefixed "(#" (hd [] ls) = true -> (length f <= fuel)%nat ->
  wpg too_long False (loop fuel (song_step song) (self, f, line)) (fun x => let '(self', f', line') := x in
    sized N self' /\ sl_filename self' = sl_filename self /\ sl_utf8 self' = sl_utf8 self /\ exists bs,
    view self' = match after_song song ls with
                 | None => mkInfo [] [] (cstr dirc) (cstr filec) [] []
                 | Some r => let '(songc, r) := comment [] r in block dirc filec songc r bs
                 end).
Proof.
  intros H0 Hs Hfr Hd Hfile Hsong. induction fuel as [|fuel IH]; intros f line ls Hc Hin Hp Hf.
  all: destruct ls as [|l ls]; [discriminate Hp|]; pose proof Hc as (Hh & Hfl); cbn [hd tl] in Hp, Hh, Hfl.
  all: assert (Hin' : incl ls all) by (intros x Hx; apply Hin; right; exact Hx).
  all: destruct (song_test song line l H0 Hh Hp) as (i & v & E1 & c & E2 & c1 & E3 & E4).
  all: assert (Hne : len l =? 0 = false) by (apply prefixed_len in Hp; change (len (str "(#")) with 2 in Hp; lia).
  all: cbn [loop after_song]; rewrite Hne; unfold song_step at 1; rewrite E1; cbn [bind]; rewrite E2; cbn [bind]; rewrite E3; cbn [bind]; rewrite E4; apply wpg_bind.
  all: destruct (song_line song l) eqn:Es.
  1, 3: destruct (read_comment_ok f line (sl_song self) ls [] (proj1 Hh) Hfl) as (f2 & line2 & a & E5 & Hcur & Ha1 & Ha2 & Hle);
    [apply Hs|exact Hsong|]; rewrite E5; cbn [bind]; pose proof (comment_incl [] ls) as Hci; destruct (comment [] ls) as [songc r]; cbn [fst snd] in *;
    apply wpg_bind; eapply wpg_mono; [apply (block_ok N (set_song self a) f2 line2 r dirc filec songc); try assumption;
      [destruct Hs as (Hs1 & Hs2 & Hs3 & Hs4 & Hs5 & Hs6 & Hs7 & Hs8); unfold sized, set_song; cbn [sl_filename sl_title sl_author sl_directory sl_file sl_song sl_covers]; auto 10
      |eapply incl_tran; eassumption]|];
    intros [[self' f'] line'] (L1 & (M1 & M2 & M3 & M4 & M5) & bs & L3); cbn [wpg leave]; split; [exact L1|]; split; [exact M1|]; split; [exact M2|]; exists bs; exact L3.
  all: destruct (until_ok song ls f line (length f) (proj1 Hh) Hfl (Nat.le_refl _)) as (again & f2 & line2 & E5 & H5); unfold until_song; rewrite E5; cbn [bind]; destruct again.
  2, 4: destruct H5 as (H5 & _); cbn [wpg leave]; split; [exact Hs|]; split; [reflexivity|]; split; [reflexivity|]; exists []; rewrite H5; destruct Hfr as (F1 & F2 & F3);
    unfold view; rewrite F1, F2, F3, Hd, Hfile, Hsong; reflexivity.
  - exfalso. destruct H5 as (ls' & _ & _ & _ & _ & H6). lia.
  - destruct H5 as (ls' & H1 & H2 & H3 & H4 & H6). cbn [wpg continue_]. rewrite H3. apply IH; try assumption; [eapply incl_tran; eassumption|lia].
Qed.

(* ---- entries ---- *)
Fixpoint common (l path : list Z) : Z :=
  match l, path with c :: l, x :: path => if same_char c x then 1 + common l path else 0 | _, _ => 0 end.

Lemma match_ok line l : holds 101 line l -> forall path i, Forall (fun c => c <> 0) path -> 0 <= i <= len l ->
  match_filename line i path = Ok (if same_path (cstr (skipn (Z.to_nat i) l)) path then -1 else i + common (cstr (skipn (Z.to_nat i) l)) path).
Proof.
  intros Hh. induction path as [|x path IH]; intros i Hz Hi; cbn [match_filename]; rewrite (holds_get _ _ _ i Hh) by lia; cbn [bind];
    destruct (skipn (Z.to_nat i) l) as [|c s] eqn:Es.
  - rewrite at_end by (rewrite (skipn_nil_at _ _ Hi Es); lia). reflexivity.
  - destruct (skipn_cons_at _ _ _ _ (proj1 Hi) Es) as [Ea _]. rewrite Ea. cbn [cstr]. destruct (c =? 0); cbn [same_path common]; [reflexivity|]. f_equal. lia.
  - rewrite at_end by (rewrite (skipn_nil_at _ _ Hi Es); lia). inversion_clear Hz. replace (0 =? x) with false by lia. cbn [cstr same_path common orb andb]. f_equal. change (0 =? 47) with false. cbn [andb]. f_equal. lia.
  - destruct (skipn_cons_at _ _ _ _ (proj1 Hi) Es) as [Ea Hlt]. rewrite Ea. inversion_clear Hz as [|? ? Hx Hz']. cbn [cstr]. destruct (c =? 0) eqn:E0.
    + replace ((c =? x) || (c =? 47) && (x =? 92)) with false by lia. cbn [same_path common]. f_equal. lia.
    + cbn [same_path common]. unfold same_char. destruct ((c =? x) || (c =? 47) && (x =? 92)); [|cbn [andb]; f_equal; lia].
      rewrite (IH (i + 1) Hz') by lia. replace (Z.to_nat (i + 1)) with (S (Z.to_nat i)) by lia. rewrite (skipn_1 _ _ _ _ Es). cbn [andb].
      destruct (same_path (cstr s) path); [reflexivity|]. f_equal. lia.
Qed.

Lemma common_range l path : 0 <= common l path <= len l.
Proof.
  revert path. induction l as [|c l IH]; intros path; cbn [common]; [change (len (@nil Z)) with 0; lia|]. rewrite len_cons. pose proof (len_nonneg l).
  destruct path as [|x path]; [lia|]. destruct (same_char c x); [|lia]. specialize (IH path). lia.
Qed.

Lemma same_dir l : forall path n, same_path l path = false -> (n <= length path)%nat ->
  same_path l (firstn n path) = (common l path =? Z.of_nat n) && (common l path =? len l).
Proof.
  induction l as [|c l IH]; intros path n Hp Hn.
  - change (len (@nil Z)) with 0. cbn [common]. destruct n as [|n]; [reflexivity|]. destruct path as [|x path]; [cbn in Hn; lia|]. cbn [firstn same_path]. change (0 =? Z.of_nat (S n)) with false. reflexivity.
  - rewrite len_cons. pose proof (len_nonneg l). destruct n as [|n].
    + cbn [firstn same_path]. pose proof (common_range (c :: l) path). rewrite len_cons in *. lia.
    + destruct path as [|x path]; [cbn in Hn; lia|]. cbn [firstn same_path common] in *. destruct (same_char c x); cbn [andb] in *.
      * rewrite (IH path n Hp ltac:(cbn in Hn; lia)). f_equal; lia.
      * lia.
Qed.

Section Entry.
Variables (N : Z) (filename : list Z) (lastSlash rootSlash song : Z).
Hypothesis song_pos : 0 <= song.
Hypothesis slash_order : 0 <= rootSlash <= lastSlash.
Hypothesis slash_in : lastSlash < len filename.
Hypothesis filename_nz : Forall (fun c => c <> 0) filename.
Notation path := (skipn (Z.to_nat rootSlash) filename).
Notation dir := (firstn (Z.to_nat (lastSlash - rootSlash + 1)) path).

Lemma path_nz : Forall (fun c => c <> 0) path.
Proof. rewrite Forall_forall in *. intros x Hx. apply filename_nz. rewrite <- (firstn_skipn (Z.to_nat rootSlash) filename). apply in_or_app. right. exact Hx. Qed.

Lemma lines_loop n : forall fuel self f line ls dirc, (length ls <= n)%nat -> (length f <= fuel)%nat -> lines f = ls -> len line = 101 -> incl ls all ->
  sized N self -> fresh self -> cstr (sl_file self) = [] -> cstr (sl_song self) = [] -> cstr (sl_directory self) = cstr dirc ->
  wpg too_long False (loop fuel (line_step filename lastSlash rootSlash song) (self, f, line)) (fun self' =>
    sized N self' /\ sl_filename self' = sl_filename self /\ sl_utf8 self' = sl_utf8 self /\ exists bs,
    view self' = (let '(dirc, o) := entry n dir path dirc ls in after_entry song dirc o bs)).
Proof.
  induction n as [|n IH]; intros fuel self f line ls dirc Hn Hf Els Hl Hin Hs Hfr Hfile Hsong Hd;
    destruct (read_line_current f line ls Hl Els) as (f2 & line2 & Er & Hcur & Hle & Hlt).
  all: assert (Hnil : ls = [] -> wpg too_long False (loop fuel (line_step filename lastSlash rootSlash song) (self, f, line)) (fun self' =>
    sized N self' /\ sl_filename self' = sl_filename self /\ sl_utf8 self' = sl_utf8 self /\ exists bs, view self' = after_entry song dirc None bs)).
  1, 3: intros ->; assert (Es : line_step filename lastSlash rootSlash song (self, f, line) = leave self) by (unfold line_step; rewrite Er; reflexivity);
    assert (El : loop fuel (line_step filename lastSlash rootSlash song) (self, f, line) = Ok self) by (destruct fuel; cbn [loop]; rewrite Es; reflexivity);
    rewrite El; cbn [wpg]; split; [exact Hs|]; split; [reflexivity|]; split; [reflexivity|]; exists []; destruct Hfr as (F1 & F2 & F3); cbn [after_entry];
    unfold view; rewrite F1, F2, F3, Hd, Hfile, Hsong; reflexivity.
  { destruct ls as [|l ls]; [cbn [entry]; apply Hnil; reflexivity|cbn in Hn; lia]. }
  destruct ls as [|l ls]; [cbn [entry]; apply Hnil; reflexivity|]. clear Hnil. specialize (Hlt ltac:(discriminate)). pose proof Hcur as (Hh & Hfl). cbn [hd tl] in Hh, Hfl.
  assert (Hin' : incl ls all) by (intros x Hx; apply Hin; right; exact Hx).
  assert (Hstep : forall P, wpg too_long False (
      if same_path (cstr l) path then
        '(f, line, comment) <- read_comment f2 line2 (sl_file self) ;;
        let self := set_file self comment in
        c0 <- get line 0 ;;
        c1 <- (if c0 =? 40 then get line 1 else Ok 0) ;;
        '(self, f, line) <- (if (c0 =? 40) && (c1 =? 35) then loop (length f) (song_step song) (self, f, line) else read_block self f line) ;;
        leave self
      else if same_path (cstr l) dir then
        '(f, line, comment) <- read_comment f2 line2 (sl_directory self) ;;
        continue_ (set_directory self comment, f, line)
      else continue_ (self, f2, line2)) P -> wpg too_long False (line_step filename lastSlash rootSlash song (self, f, line)) P).
  { intros P HP. unfold line_step. rewrite Er. cbn [bind size]. pose proof (len_nonneg l) as Hll. replace (len l <? 0) with false by lia.
    rewrite (match_ok line2 l Hh path 0 path_nz) by lia. cbn [bind Z.to_nat skipn].
    destruct (same_path (cstr l) path) eqn:Ep.
    - change (-1 =? -1) with true. cbn iota. exact HP.
    - pose proof (common_range (cstr l) path) as Hcr. rewrite Z.add_0_l. replace (common (cstr l) path =? -1) with false by lia. cbn iota.
      rewrite (same_dir _ _ _ Ep) in HP by (rewrite skipn_length; unfold len in slash_in; lia).
      rewrite Z2Nat.id in HP by lia. pose proof (len_cstr l) as Hlc.
      destruct (common (cstr l) path =? lastSlash - rootSlash + 1) eqn:Ec; cbn [bind andb] in *.
      + rewrite (holds_get _ _ _ _ Hh) by lia. cbn [bind].
        assert (Ez : (at_ l (common (cstr l) path) =? 0) = (common (cstr l) path =? len (cstr l))).
        { destruct (common (cstr l) path =? len (cstr l)) eqn:E.
          - assert (E' : common (cstr l) path = len (cstr l)) by lia. rewrite E'. clear. induction l as [|c l IH]; [reflexivity|]. cbn [cstr].
            destruct (c =? 0) eqn:E0; [rewrite len_nil, at_cons_0; exact E0|]. pose proof (len_nonneg (cstr l)). rewrite len_cons, at_cons_S by lia. replace (1 + len (cstr l) - 1) with (len (cstr l)) by lia. exact IH.
          - assert (Hlt2 : common (cstr l) path < len (cstr l)) by lia. rewrite <- at_cstr by lia.
            pose proof (cstr_nonzero l) as Hz. rewrite Forall_forall in Hz. specialize (Hz (at_ (cstr l) (common (cstr l) path))).
            assert (Hnin : at_ (cstr l) (common (cstr l) path) <> 0); [|lia]. apply Hz. unfold at_. apply nth_In. unfold len in *. lia. }
        rewrite Ez. exact HP.
      + change (1 =? 0) with false. cbn iota. exact HP. }
  assert (Hloop : forall P, wpg too_long False (line_step filename lastSlash rootSlash song (self, f, line))
      (fun x => match x with inl s' => match fuel with O => False | S fuel => wpg too_long False (loop fuel (line_step filename lastSlash rootSlash song) s') P end | inr r => P r end) ->
      wpg too_long False (loop fuel (line_step filename lastSlash rootSlash song) (self, f, line)) P).
  { intros P HP. destruct fuel; cbn [loop]; apply wpg_bind; (eapply wpg_mono; [exact HP|]); intros [x|x] Hx; exact Hx. }
  apply Hloop, Hstep. clear Hloop Hstep. cbn [entry]. destruct (same_path (cstr l) path) eqn:Ep.
  - destruct (read_comment_ok f2 line2 (sl_file self) ls [] (proj1 Hh) Hfl) as (f3 & line3 & a & E5 & Hcur3 & Ha1 & Ha2 & Hle3); [apply Hs|exact Hfile|].
    rewrite E5. cbn [bind]. cbv zeta. cbn [after_entry]. pose proof (comment_incl [] ls) as Hci. destruct (comment [] ls) as [filec r]. cbn [fst snd] in *.
    pose proof Hcur3 as (Hh3 & Hf3).
    assert (Hs' : sized N (set_file self a)).
    { destruct Hs as (Hs1 & Hs2 & Hs3 & Hs4 & Hs5 & Hs6 & Hs7 & Hs8). unfold sized, set_file. cbn [sl_filename sl_title sl_author sl_directory sl_file sl_song sl_covers]. auto 10. }
    assert (Hin3 : incl r all) by (eapply incl_tran; eassumption).
    assert (Etest : forall (A : Type) (k : Z -> Z -> outcome A), bind (get line3 0) (fun c0 => bind (if c0 =? 40 then get line3 1 else Ok 0) (fun c1 => k c0 c1)) =
       k (at_ (hd [] r) 0) (if at_ (hd [] r) 0 =? 40 then at_ (hd [] r) 1 else 0)).
    { intros A k. pose proof (len_nonneg (hd [] r)). rewrite (holds_get _ _ _ 0 Hh3) by lia. cbn [bind]. destruct (at_ (hd [] r) 0 =? 40) eqn:E40; [|reflexivity].
      rewrite (holds_get _ _ _ 1 Hh3); [reflexivity|]. destruct (Z.eq_dec (len (hd [] r)) 0) as [Z0|]; [|lia]. rewrite at_end in E40 by lia. discriminate. }
    rewrite Etest.
    assert (Eb : (at_ (hd [] r) 0 =? 40) && ((if at_ (hd [] r) 0 =? 40 then at_ (hd [] r) 1 else 0) =? 35) = prefixed "(#" (hd [] r)).
    { generalize (hd [] r). clear. intros l. unfold prefixed. change (str "(#") with [40; 35]. cbn [length]. apply eq_true_iff_eq. rewrite eqb_list_spec.
      destruct l as [|c0 l]; [split; [discriminate|discriminate]|]. rewrite at_cons_0. destruct l as [|c1 l].
      - cbn [firstn]. split; [|discriminate]. destruct (c0 =? 40); discriminate.
      - rewrite at_cons_S by lia. change (1 - 1) with 0. rewrite at_cons_0. cbn [firstn]. split.
        + intros E. assert (c0 = 40) by lia. replace (c0 =? 40) with true in E by lia. assert (c1 = 35) by lia. congruence.
        + intros E. injection E as -> ->. reflexivity. }
    rewrite Eb. apply wpg_bind. destruct (prefixed "(#" (hd [] r)) eqn:Ep2.
    + eapply wpg_mono; [apply (song_loop N song (set_file self a) dirc filec song_pos Hs' Hfr Hd Ha2 Hsong (length f3) f3 line3 r Hcur3 Hin3 Ep2); lia|].
      intros [[self' f'] line'] H. exact H.
    + eapply wpg_mono; [apply (block_ok N (set_file self a) f3 line3 r dirc filec [] Hs' Hfr Hcur3 Hin3 Hd Ha2); exact Hsong|].
      intros [[self' f'] line'] (L1 & (M1 & M2 & M3 & M4 & M5) & bs & L3). cbn [wpg leave]. split; [exact L1|]. split; [exact M1|]. split; [exact M2|]. exists bs. exact L3.
  - destruct fuel as [|fuel]; [lia|]. destruct (same_path (cstr l) dir) eqn:Ed.
    + destruct (read_comment_ok f2 line2 (sl_directory self) ls dirc (proj1 Hh) Hfl) as (f3 & line3 & a & E5 & Hcur3 & Ha1 & Ha2 & Hle3); [apply Hs|exact Hd|].
      rewrite E5. cbn [bind wpg continue_]. pose proof (comment_incl dirc ls) as Hci. pose proof (comment_le dirc ls) as Hcl. destruct (comment dirc ls) as [c r]. cbn [fst snd] in *.
      destruct Hcur3 as (Hh3 & Hf3). cbn [length] in Hn.
      apply (IH fuel (set_directory self a) f3 line3 (tl r) c); try assumption; try lia.
      * destruct r; cbn [tl length] in *; lia.
      * apply Hh3.
      * intros x Hx. apply Hin', Hci. destruct r; [exact Hx|right; exact Hx].
      * destruct Hs as (Hs1 & Hs2 & Hs3 & Hs4 & Hs5 & Hs6 & Hs7 & Hs8). unfold sized, set_directory. cbn [sl_filename sl_title sl_author sl_directory sl_file sl_song sl_covers]. auto 10.
    + cbn [wpg continue_]. apply (IH fuel self f2 line2 ls dirc); try assumption; try lia; [cbn [length] in Hn; lia|apply Hh].
Qed.
End Entry.
End Load.
