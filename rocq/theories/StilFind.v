(* Facts about the STIL parser: finding STIL.txt, and ASTIL_Load. *)
From Coq Require Import String.
From Verif Require Import Base BaseFacts Loop InfoModel WriterModel WriterProofs StoreProofs StilModel StilSpec StilProofs StilCovers StilLoad.

Lemma slashes_snoc l c : forall i, slashes i (l ++ [c]) = (if is_slash c then [i + len l] else []) ++ slashes i l.
Proof.
  induction l as [|x l IH]; intros i; cbn [slashes app].
  - change (len (@nil Z)) with 0. rewrite Z.add_0_r, app_nil_r. reflexivity.
  - rewrite IH, len_cons. replace (i + 1 + len l) with (i + (1 + len l)) by lia. now rewrite <- app_assoc.
Qed.

Lemma firstn_snoc_at l n : (n < length l)%nat -> firstn (S n) l = firstn n l ++ [at_ l (Z.of_nat n)].
Proof.
  unfold at_. rewrite Nat2Z.id. revert n. induction l as [|x l IH]; intros n Hn; [cbn in Hn; lia|]. destruct n as [|n]; [reflexivity|].
  cbn [firstn nth app]. f_equal. apply IH. cbn in Hn. lia.
Qed.

Lemma previous_slash_ok filename n : (n <= length filename)%nat -> previous_slash n filename = Ok (hd (-1) (slashes 0 (firstn n filename))).
Proof.
  induction n as [|n IH]; intros Hn; [reflexivity|]. cbn [previous_slash]. unfold cget.
  rewrite get_ok by (rewrite len_app; unfold len; cbn [length]; lia). cbn [bind]. rewrite at_app1 by (unfold len; lia).
  rewrite firstn_snoc_at by lia. rewrite slashes_snoc. fold (is_slash (at_ filename (Z.of_nat n))).
  unfold is_slash. destruct ((at_ filename (Z.of_nat n) =? 47) || (at_ filename (Z.of_nat n) =? 92)).
  - cbn [app hd]. f_equal. unfold len. rewrite firstn_length. lia.
  - cbn [app]. apply IH. lia.
Qed.

(* the slashes before position p are those of the first p characters *)
Lemma slashes_next filename n p r : (n <= length filename)%nat -> slashes 0 (firstn n filename) = p :: r ->
  0 <= p < Z.of_nat n /\ is_slash (at_ filename p) = true /\ slashes 0 (firstn (Z.to_nat p) filename) = r.
Proof.
  induction n as [|n IH]; intros Hn E; [discriminate|]. rewrite firstn_snoc_at in E by lia. rewrite slashes_snoc in E.
  destruct (is_slash (at_ filename (Z.of_nat n))) eqn:Es.
  - cbn [app] in E. assert (Hl : len (firstn n filename) = Z.of_nat n) by (unfold len; rewrite firstn_length; lia).
    assert (Ep : p = Z.of_nat n) by (rewrite Hl in E; cbn [Z.add] in E; congruence). assert (Er : r = slashes 0 (firstn n filename)) by congruence. subst p r.
    rewrite Nat2Z.id. repeat split; try lia. exact Es.
  - cbn [app] in E. destruct (IH ltac:(lia) E) as (H1 & H2). split; [lia|exact H2].
Qed.

Lemma Forall_firstn_nz (l : list Z) n : Forall (fun c => c <> 0) l -> Forall (fun c => c <> 0) (firstn n l).
Proof. intros H. rewrite Forall_forall in *. intros x Hx. apply H. rewrite <- (firstn_skipn n l). apply in_or_app. left. exact Hx. Qed.

Lemma string_at_0 s r : Forall (fun c => c <> 0) s -> string_at (s ++ 0 :: r) 0 = Ok s.
Proof. intros H. unfold string_at. cbn [Z.to_nat skipn]. rewrite string_in_cstr. f_equal. now apply cstr_id. Qed.

Lemma put_after n a d t : len a = n -> firstn (length d) a = d -> len d + len t < n -> exists r, put_range a (len d) (t ++ [0]) = Ok (d ++ t ++ 0 :: r) /\ len (d ++ t ++ 0 :: r) = n.
Proof.
  intros Ha Hd Hn. pose proof (len_nonneg d). pose proof (len_nonneg t). assert (Hx : len (t ++ [0]) = len t + 1) by (rewrite len_app; reflexivity).
  rewrite put_range_ok by lia. pose proof (len_splice a (len d) (t ++ [0]) ltac:(lia) ltac:(lia)) as Hl. unfold splice in *.
  replace (Z.to_nat (len d)) with (length d) in * by (unfold len; lia). rewrite Hd in *. rewrite <- app_assoc in *. cbn [app] in *. eexists. split; [reflexivity|]. lia.
Qed.

Lemma find_stil_ok fs filename N : Forall (fun c => c <> 0) filename -> forall n buffer m ls, slashes 0 (firstn m filename) = ls -> (m <= length filename)%nat -> (length ls <= n)%nat ->
  (forall p, hd_error ls = Some p -> p < N - 14) -> len buffer = N -> 0 < N -> firstn m buffer = firstn m filename ->
  exists buffer', len buffer' = N /\
    match first_file fs (flat_map (tried filename) ls) with
    | Some (p, name, f) => find_stil n fs filename (hd (-1) ls) buffer = Ok (Some (p, f), buffer') /\ cstr buffer' = name
    | None => find_stil n fs filename (hd (-1) ls) buffer = Ok (None, buffer') /\ cstr buffer' = []
    end.
Proof.
  intros Hnz. induction n as [|n IH]; intros buffer m ls Els Hm Hn Hp HN HN0 Hb; destruct ls as [|p ls].
  1, 3: cbn [hd flat_map first_file]; destruct (set_0 N buffer HN HN0) as (a' & E & Ha); exists a'; split; [apply Ha|]; split; [|apply (holds_cstr _ _ _ Ha)];
    cbn [find_stil]; change (-1 <? 0) with true; cbn iota; rewrite E; reflexivity.
  1: cbn [length] in Hn; lia.
  destruct (slashes_next filename m p ls Hm Els) as (Hpr & Hsl & Hnext). specialize (Hp p eq_refl).
  set (d := firstn (Z.to_nat (p + 1)) filename).
  assert (Hld : length d = Z.to_nat (p + 1)) by (unfold d; rewrite firstn_length; lia).
  assert (Hd : firstn (length d) buffer = d).
  { rewrite Hld. unfold d. rewrite <- (firstn_firstn filename (Z.to_nat (p + 1)) m) || idtac.
    replace (Z.to_nat (p + 1)) with (Nat.min (Z.to_nat (p + 1)) m) by lia. rewrite <- !firstn_firstn. now rewrite Hb. }
  assert (Hlen : len d = p + 1) by (unfold len; lia).
  assert (Hdnz : Forall (fun c => c <> 0) d) by now apply Forall_firstn_nz.
  assert (Hsep : at_ d p = at_ filename p).
  { unfold d. rewrite <- (firstn_skipn (Z.to_nat (p + 1)) filename) at 2. rewrite at_app1; [reflexivity|]. fold d. lia. }
  assert (Hsnz : at_ filename p <> 0) by (unfold is_slash in Hsl; lia).
  cbn [hd flat_map tried app first_file]. fold d.
  change (at_ filename p :: str "STIL.txt") with ([at_ filename p] ++ str "STIL.txt").
  destruct (put_after N buffer d (str "Docs/STIL.txt") HN Hd) as (r1 & E1 & L1); [rewrite Hlen; change (len (str "Docs/STIL.txt")) with 13; lia|].
  rewrite Hlen in E1.
  assert (E2 : get (d ++ str "Docs/STIL.txt" ++ 0 :: r1) p = Ok (at_ filename p)).
  { rewrite get_ok by (rewrite L1; lia). f_equal. rewrite at_app1 by lia. exact Hsep. }
  assert (E3 : set_nth (d ++ str "Docs/STIL.txt" ++ 0 :: r1) (p + 5) (at_ filename p) = Ok ((d ++ str "Docs" ++ [at_ filename p] ++ str "STIL.txt") ++ 0 :: r1)).
  { unfold set_nth. rewrite L1. replace ((p + 5 <? 0) || (N <=? p + 5)) with false by lia. f_equal.
    change (str "Docs/STIL.txt") with (str "Docs" ++ 47 :: str "STIL.txt"). rewrite <- !app_assoc. cbn [app]. rewrite (app_assoc d (str "Docs")).
    replace (Z.to_nat (p + 5)) with (length (d ++ str "Docs")) by (rewrite app_length, Hld; change (length (str "Docs")) with 4%nat; lia).
    rewrite upd_at. rewrite <- app_assoc. reflexivity. }
  assert (Hnz1 : Forall (fun c => c <> 0) (d ++ str "Docs" ++ [at_ filename p] ++ str "STIL.txt")).
  { apply Forall_app. split; [exact Hdnz|]. apply Forall_app. split; [solve_nz|]. apply Forall_app. split; [constructor; [exact Hsnz|constructor]|solve_nz]. }
  cbn [find_stil]. replace (p <? 0) with false by lia. rewrite E1. cbn [bind]. rewrite E2. cbn [bind]. rewrite E3. cbn [bind].
  rewrite string_at_0 by exact Hnz1. cbn [bind].
  assert (L3 : len ((d ++ str "Docs" ++ [at_ filename p] ++ str "STIL.txt") ++ 0 :: r1) = N).
  { unfold set_nth in E3. rewrite L1 in E3. destruct ((p + 5 <? 0) || (N <=? p + 5)); [discriminate|]. assert (E3' : upd (d ++ str "Docs/STIL.txt" ++ 0 :: r1) (Z.to_nat (p + 5)) (at_ filename p) = (d ++ str "Docs" ++ [at_ filename p] ++ str "STIL.txt") ++ 0 :: r1) by congruence.
    rewrite <- E3', len_upd. exact L1. }
  destruct (fs (d ++ str "Docs" ++ [at_ filename p] ++ str "STIL.txt")) as [f|].
  { eexists. split; [exact L3|]. split; [reflexivity|]. rewrite cstr_app_0. now apply cstr_id. }
  destruct (put_after N ((d ++ str "Docs" ++ [at_ filename p] ++ str "STIL.txt") ++ 0 :: r1) d (str "STIL.txt") L3) as (r2 & E4 & L4).
  { rewrite <- app_assoc. apply firstn_app_exact. reflexivity. }
  { rewrite Hlen. change (len (str "STIL.txt")) with 8. lia. }
  rewrite Hlen in E4. rewrite E4. cbn [bind].
  assert (Hnz2 : Forall (fun c => c <> 0) (d ++ str "STIL.txt")) by (apply Forall_app; split; [exact Hdnz|solve_nz]).
  rewrite app_assoc in L4. rewrite app_assoc. rewrite string_at_0 by exact Hnz2. cbn [bind].
  destruct (fs (d ++ str "STIL.txt")) as [f|].
  { eexists. split; [exact L4|]. split; [reflexivity|]. rewrite cstr_app_0. now apply cstr_id. }
  rewrite previous_slash_ok by lia. cbn [bind]. rewrite Hnext.
  apply (IH _ (Z.to_nat p) ls Hnext); try assumption; try lia.
  - cbn [length] in Hn. lia.
  - intros q Hq. destruct ls as [|q' ls']; [discriminate|]. cbn [hd_error] in Hq. assert (q' = q) by congruence. subst q'.
    destruct (slashes_next filename (Z.to_nat p) q ls') as (Hq' & _); [lia|exact Hnext|]. lia.
  - rewrite <- app_assoc. rewrite firstn_app. replace (Z.to_nat p - length d)%nat with 0%nat by lia. rewrite firstn_O, app_nil_r. unfold d.
    rewrite firstn_firstn. f_equal. lia.
Qed.

Lemma read_bom_ok f : read_bom f = (marked f, text f).
Proof.
  unfold read_bom, text, marked. destruct f as [|a [|b [|c r]]]; cbn [firstn skipn]; try reflexivity.
  1, 2: match goal with |- context [eqb_list ?x ?y] => destruct (eqb_list x y) eqn:E end; [rewrite eqb_list_spec in E; discriminate|reflexivity].
  destruct ((a =? 239) && (b =? 187) && (c =? 191)) eqn:E.
  - assert (a = 239) by lia. assert (b = 187) by lia. assert (c = 191) by lia. subst. reflexivity.
  - destruct (eqb_list [a; b; c] [239; 187; 191]) eqn:E'; [|reflexivity]. rewrite eqb_list_spec in E'. injection E' as -> -> ->. discriminate E.
Qed.

Lemma slashes_len l : forall i, (length (slashes i l) <= length l)%nat.
Proof. induction l as [|c l IH]; intros i; cbn [slashes]; [auto|]. rewrite app_length. specialize (IH (i + 1)). destruct (is_slash c); cbn [length]; lia. Qed.

Lemma first_file_in fs l p name f : first_file fs l = Some (p, name, f) -> In (p, name) l /\ fs name = Some f.
Proof.
  induction l as [|[q nm] l IH]; cbn [first_file]; [discriminate|]. destruct (fs nm) eqn:E.
  - intros H. assert (q = p) by congruence. assert (nm = name) by congruence. assert (l0 = f) by congruence. subst. split; [left; reflexivity|exact E].
  - intros H. destruct (IH H). split; [right|]; assumption.
Qed.

Lemma slashes_sorted l : forall i p q r, slashes i l = q :: r -> In p (q :: r) -> i <= p <= q /\ q < i + len l.
Proof.
  induction l as [|c l IH] using rev_ind; intros i p q r E Hp; [discriminate|]. rewrite slashes_snoc in E. rewrite len_app. change (len [c]) with 1.
  destruct (is_slash c); cbn [app] in E.
  - assert (Eq : q = i + len l) by congruence. assert (Er : r = slashes i l) by congruence. pose proof (len_nonneg l). destruct Hp as [->|Hp]; [lia|].
    rewrite Er in Hp. destruct (slashes i l) as [|q' r'] eqn:El; [destruct Hp|]. specialize (IH i p q' r' El Hp). lia.
  - specialize (IH i p q r E Hp). lia.
Qed.

Lemma astil_load_ok fs filename song line self N : 0 <= song -> sized N self -> 0 < N -> len line = 101 -> Forall (fun c => c <> 0) filename ->
  wpg (fun r => r = UbRead /\ exists p name f l, found N fs filename = Some (p, name, f) /\ In l (lines (text f)) /\ dangling l = true /\ 99 <= len l) False
    (astil_load fs filename song line self)
    (fun x => let '(ok, self') := x in sized N self' /\
       match found N fs filename with
       | None => ok = false /\ cstr (sl_filename self') = [] /\ view self' = nothing
       | Some (p, name, f) => ok = true /\ cstr (sl_filename self') = name /\ sl_utf8 self' = marked f /\
           exists bs, view self' = info_of (dir_of p filename) (below p filename) song (lines (text f)) bs
       end).
Proof.
  intros Hsong Hs HN Hl Hnz. pose proof Hs as (Hs1 & Hs2 & Hs3 & Hs4 & Hs5 & Hs6 & Hs7 & Hs8). unfold astil_load.
  rewrite previous_slash_ok by lia. rewrite firstn_all. cbn [bind].
  destruct (set_0 N (sl_filename self) Hs1 HN) as (a1 & E1 & H1). rewrite E1. cbn [bind].
  destruct (set_0 101 (sl_title self) Hs2 eq_refl) as (a2 & E2 & H2). rewrite E2. cbn [bind].
  destruct (set_0 101 (sl_author self) Hs3 eq_refl) as (a3 & E3 & H3). rewrite E3. cbn [bind].
  destruct (set_0 1001 (sl_directory self) Hs4 eq_refl) as (a4 & E4 & H4). rewrite E4. cbn [bind].
  destruct (set_0 1001 (sl_file self) Hs5 eq_refl) as (a5 & E5 & H5). rewrite E5. cbn [bind].
  destruct (set_0 1001 (sl_song self) Hs6 eq_refl) as (a6 & E6 & H6). rewrite E6. cbn [bind]. cbv zeta. cbn [sl_filename].
  set (self1 := mkStil 0 (sl_utf8 self) a1 a2 a3 a4 a5 a6 (sl_covers self)).
  assert (Hsz : forall b u, len b = N -> sized N (set_utf8 (set_filename self1 b) u)).
  { intros b u Hb. destruct H2, H3, H4, H5, H6. unfold sized, self1, set_filename, set_utf8. cbn [sl_filename sl_title sl_author sl_directory sl_file sl_song sl_covers]. auto 12. }
  assert (Hv : forall b, view (set_filename self1 b) = nothing).
  { intros b. unfold view, self1, set_filename. cbn [sl_nCovers sl_title sl_author sl_directory sl_file sl_song sl_covers].
    rewrite (holds_cstr _ _ _ H2), (holds_cstr _ _ _ H3), (holds_cstr _ _ _ H4), (holds_cstr _ _ _ H5), (holds_cstr _ _ _ H6). reflexivity. }
  assert (Hsz' : forall b, len b = N -> sized N (set_filename self1 b)).
  { intros b Hb. specialize (Hsz b (sl_utf8 self) Hb). exact Hsz. }
  rewrite (proj1 H1). unfold found, candidates. destruct (slashes 0 filename) as [|q r] eqn:Esl.
  { cbn [hd flat_map first_file]. change (-1 <? 0) with true. cbn [orb wpg]. split; [apply (Hsz' a1 (proj1 H1))|].
    destruct (0 <? N - 14); (split; [reflexivity|]; split; [apply (holds_cstr _ _ _ H1)|apply (Hv a1)]). }
  cbn [hd]. destruct (slashes_sorted filename 0 q q r Esl (or_introl eq_refl)) as (Hq1 & Hq2). rewrite Z.add_0_l in Hq2.
  replace (q <? 0) with false by lia. cbn [orb]. destruct (N - 14 <=? q) eqn:EN.
  { replace (q <? N - 14) with false by lia. cbn [wpg]. split; [apply (Hsz' a1 (proj1 H1))|]. split; [reflexivity|]. split; [apply (holds_cstr _ _ _ H1)|apply (Hv a1)]. }
  replace (q <? N - 14) with true by lia.
  rewrite get_range_ok by lia. cbn [bind].
  assert (Hls : len (slice filename 0 (q + 1)) = q + 1) by (rewrite len_slice; lia).
  rewrite put_range_ok by (pose proof (proj1 H1); lia). cbn [bind].
  assert (Els' : slashes 0 (firstn (Z.to_nat (q + 1)) filename) = q :: r).
  { pose proof (slashes_next filename (length filename) q r (Nat.le_refl _)) as Hn. rewrite firstn_all in Hn. destruct (Hn Esl) as (_ & Hsl & Hrest).
    replace (Z.to_nat (q + 1)) with (S (Z.to_nat q)) by lia. rewrite firstn_snoc_at by (unfold len in Hq2; lia). rewrite slashes_snoc.
    rewrite Z2Nat.id by lia. rewrite Hsl, Hrest. cbn [app]. f_equal. unfold len. rewrite firstn_length. unfold len in Hq2. lia. }
  destruct (find_stil_ok fs filename N Hnz (length filename) (splice a1 0 (slice filename 0 (q + 1))) (Z.to_nat (q + 1)) (q :: r) Els') as (buffer & Lb & Hfind).
  { unfold len in Hq2. lia. }
  { pose proof (slashes_len filename 0). rewrite Esl in H. exact H. }
  { cbn [hd_error]. intros p Hp. assert (q = p) by congruence. lia. }
  { rewrite len_splice; [apply H1|lia|pose proof (proj1 H1); lia]. }
  { exact HN. }
  { unfold splice, slice. rewrite Z.sub_0_r. cbn [Z.to_nat skipn firstn app]. apply firstn_app_exact. rewrite firstn_length. unfold len in Hq2. lia. }
  cbn [hd] in Hfind.
  destruct (first_file fs (flat_map (tried filename) (q :: r))) as [[[p name] f]|] eqn:Eff.
  2:{ destruct Hfind as (Ef & Ec). rewrite Ef. cbn [bind wpg]. split; [apply (Hsz' buffer Lb)|]. split; [reflexivity|]. split; [exact Ec|apply Hv]. }
  destruct Hfind as (Ef & Ec). rewrite Ef. cbn [bind]. rewrite read_bom_ok.
  assert (Hp : 0 <= p <= q).
  { apply first_file_in in Eff. destruct Eff as (Hin & _). apply in_flat_map in Hin. destruct Hin as (p' & Hp' & Hin).
    destruct (slashes_sorted filename 0 p' q r Esl Hp') as (Hp'' & _). unfold tried in Hin. cbn [In] in Hin. destruct Hin as [Hin|[Hin|[]]]; assert (p' = p) by congruence; lia. }
  apply wpg_bind. eapply wpg_mono.
  - eapply wpg_weaken; [|intros Hx; exact Hx|].
    2:{ apply (lines_loop (lines (text f)) (short_lines _) N filename q p song Hsong Hp Hq2 Hnz (length (lines (text f))) (length (text f)) (set_utf8 (set_filename self1 buffer) (marked f)) (text f) line (lines (text f)) []); try reflexivity; try lia.
        - apply incl_refl.
        - apply Hsz. exact Lb.
        - unfold fresh, self1, set_filename, set_utf8. cbn [sl_title sl_author sl_nCovers]. split; [apply (holds_cstr _ _ _ H2)|]. split; [apply (holds_cstr _ _ _ H3)|reflexivity].
        - apply (holds_cstr _ _ _ H5).
        - apply (holds_cstr _ _ _ H6).
        - apply (holds_cstr _ _ _ H4). }
    intros rr (-> & l & Hl1 & Hl2 & Hl3). split; [reflexivity|]. exists p, name, f, l. auto.
  - intros self' (L1 & L2 & L3 & bs & L4). cbn [wpg]. split; [exact L1|]. split; [reflexivity|]. split; [rewrite L2; exact Ec|]. split; [exact L3|].
    exists bs. unfold info_of, dir_of, below. rewrite Esl. cbn [hd]. exact L4.
Qed.
