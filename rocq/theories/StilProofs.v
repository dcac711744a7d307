(* Facts about the STIL parser: lines, fields and comments. *)
From Coq Require Import String.
From Verif Require Import Base BaseFacts Loop InfoModel WriterModel WriterProofs StoreProofs StilModel StilSpec.

(* an array of n characters that begins with l and a NUL *)
Definition holds (n : Z) (a l : list Z) : Prop := len a = n /\ exists r, a = l ++ 0 :: r.

Lemma holds_len n a l : holds n a l -> len l < n.
Proof. intros (H & r & ->). rewrite len_app, len_cons in H. pose proof (len_nonneg r). lia. Qed.

Lemma at_end l i : len l <= i -> at_ l i = 0.
Proof. unfold at_, len. intros H. apply nth_overflow. lia. Qed.

Lemma holds_get n a l i : holds n a l -> 0 <= i <= len l -> get a i = Ok (at_ l i).
Proof.
  intros H Hi. pose proof (holds_len _ _ _ H) as Hl. destruct H as (H & r & E). rewrite get_ok by lia. f_equal. rewrite E.
  destruct (Z.eq_dec i (len l)) as [->|N]; [|apply at_app1; lia].
  rewrite at_app2 by lia. rewrite Z.sub_diag, at_cons_0. symmetry. apply at_end. lia.
Qed.

Lemma cstr_app_0 l r : cstr (l ++ 0 :: r) = cstr l.
Proof. induction l as [|c l IH]; cbn [cstr app]; [reflexivity|]. destruct (c =? 0); [reflexivity|]. now rewrite IH. Qed.

Lemma holds_cstr n a l : holds n a l -> cstr a = cstr l.
Proof. intros (_ & r & ->). apply cstr_app_0. Qed.

Lemma cstr_cstr l : cstr (cstr l) = cstr l.
Proof. apply cstr_id, cstr_nonzero. Qed.

Lemma string_in_cstr l r : string_in (l ++ 0 :: r) = Ok (cstr l).
Proof.
  induction l as [|c l IH]; cbn [string_in app cstr]; [reflexivity|]. destruct (c =? 0); [reflexivity|]. now rewrite IH.
Qed.

Lemma holds_string n a l i : holds n a l -> 0 <= i <= len l -> string_at a i = Ok (cstr (skipn (Z.to_nat i) l)).
Proof.
  intros (_ & r & ->) Hi. unfold string_at. rewrite skipn_app. unfold len in Hi.
  replace (Z.to_nat i - length l)%nat with 0%nat by lia. cbn [skipn]. apply string_in_cstr.
Qed.

Lemma holds_put n a l t i : holds n a l -> 0 <= i -> i + len t < n -> (i <= len l) ->
  exists a', put_range a i (t ++ [0]) = Ok a' /\ holds n a' (firstn (Z.to_nat i) l ++ t).
Proof.
  intros H Hi Hn Hl. pose proof (holds_len _ _ _ H) as Hl'. destruct H as (H & r & E).
  rewrite put_range_ok by (rewrite ?len_app, ?len_cons, ?len_nil; lia).
  eexists. split; [reflexivity|]. split; [rewrite len_splice; rewrite ?len_app, ?len_cons, ?len_nil; lia|].
  unfold splice. rewrite E. rewrite firstn_app. unfold len in Hl. replace (Z.to_nat i - length l)%nat with 0%nat by lia.
  rewrite firstn_O, app_nil_r. eexists. rewrite <- !app_assoc. cbn [app]. reflexivity.
Qed.

Lemma fresh_put n a t : len a = n -> len t < n -> exists a', put_range a 0 (t ++ [0]) = Ok a' /\ holds n a' t.
Proof.
  intros H Ht. pose proof (len_nonneg t) as Hp. assert (Hx : len (t ++ [0]) = len t + 1) by (rewrite len_app; reflexivity).
  rewrite put_range_ok by lia.
  eexists. split; [reflexivity|]. split; [rewrite len_splice; lia|].
  unfold splice. cbn [firstn app Z.to_nat]. rewrite <- app_assoc. cbn [app]. eexists. reflexivity.
Qed.

Lemma set_0 n a : len a = n -> 0 < n -> exists a', set_nth a 0 0 = Ok a' /\ holds n a' [].
Proof.
  intros H Hn. unfold set_nth. replace ((0 <? 0) || (len a <=? 0)) with false by lia. eexists. split; [reflexivity|].
  split; [now rewrite len_upd|]. destruct a; [change (len (@nil Z)) with 0 in H; lia|]. cbn [upd Z.to_nat app]. eexists. reflexivity.
Qed.

Lemma strcpy_ok n a t : len a = n -> len t < n -> exists a', strcpy a t = Ok a' /\ holds n a' t.
Proof. apply fresh_put. Qed.

(* ---- reading a line ---- *)
Lemma len_firstn_le {A} (l : list A) n : len (firstn n l) <= Z.of_nat n.
Proof. unfold len. rewrite firstn_length. lia. Qed.

Lemma drop_while_len p l : len (drop_while p l) <= len l.
Proof. induction l as [|c l IH]; cbn [drop_while]; [lia|]. destruct (p c); rewrite ?len_cons; lia. Qed.

Lemma len_rev {A} (l : list A) : len (rev l) = len l.
Proof. unfold len. now rewrite rev_length. Qed.

Lemma clean_len raw : len (clean raw) <= 100.
Proof.
  unfold clean. rewrite len_rev. eapply Z.le_trans; [apply drop_while_len|]. rewrite len_rev.
  eapply Z.le_trans; [apply len_firstn_le|]. lia.
Qed.

Definition rstrip (l : list Z) : list Z := rev (drop_while blank (rev l)).

Lemma rstrip_snoc l c : rstrip (l ++ [c]) = if blank c then rstrip l else l ++ [c].
Proof. unfold rstrip. rewrite rev_app_distr. cbn [rev app drop_while]. destruct (blank c); [reflexivity|]. cbn [rev]. now rewrite rev_involutive. Qed.

Lemma trimmed_ok l r : trimmed (length l) (l ++ r) = Ok (len (rstrip l)).
Proof.
  revert r. induction l as [|c l IH] using rev_ind; intros r; [reflexivity|].
  rewrite app_length, Nat.add_comm. cbn [length Nat.add trimmed]. rewrite <- app_assoc.
  rewrite get_ok by (unfold len; rewrite !app_length; cbn [length app]; lia). cbn [bind].
  rewrite at_app2 by (unfold len; lia). replace (Z.of_nat (length l) - len l) with 0 by (unfold len; lia).
  cbn [app]. rewrite at_cons_0, rstrip_snoc. unfold blank. destruct ((c =? 32) || (c =? 9)); [apply IH|].
  unfold len. rewrite app_length. cbn [length]. f_equal. lia.
Qed.

Lemma rstrip_prefix l : exists k, l = rstrip l ++ k.
Proof.
  induction l as [|c l IH] using rev_ind; [exists []; reflexivity|]. rewrite rstrip_snoc. destruct (blank c); [|exists []; now rewrite app_nil_r].
  destruct IH as (k & E). exists (k ++ [c]). rewrite app_assoc, <- E. reflexivity.
Qed.

Lemma upd_at (l : list Z) x r v : upd (l ++ x :: r) (length l) v = l ++ v :: r.
Proof. induction l as [|c l IH]; cbn [upd app length]; [reflexivity|]. now rewrite IH. Qed.

Definition visible (raw : list Z) : list Z := filter (fun c => negb (c =? 13)) raw.

Lemma cut_line_len f l r : cut_line f = Some (l, r) -> (length f = length l + 1 + length r)%nat.
Proof.
  revert l r. induction f as [|c f IH]; intros l r E; cbn [cut_line] in E; [discriminate|]. destruct (c =? 10).
  - injection E as <- <-. cbn [length]. lia.
  - destruct (cut_line f) as [[l' r']|]; [|discriminate]. injection E as <- <-. cbn [length]. rewrite (IH l' r' eq_refl). lia.
Qed.

Lemma split_begun f : forall begun, split_lines begun f = match cut_line f with Some (l, r) => (rev begun ++ l) :: split_lines [] r | None => [] end.
Proof.
  induction f as [|c f IH]; intros begun; cbn [split_lines cut_line]; [reflexivity|]. destruct (c =? 10); [now rewrite app_nil_r|].
  rewrite IH. destruct (cut_line f) as [[l r]|]; [|reflexivity]. cbn [rev]. rewrite <- app_assoc. reflexivity.
Qed.

Lemma lines_cut f : lines f = match cut_line f with Some (l, r) => clean l :: lines r | None => [] end.
Proof. unfold lines. rewrite split_begun. destruct (cut_line f) as [[l r]|]; reflexivity. Qed.

(* the characters stored so far are p *)
Lemma read_line_from_ok f : forall p k, len p <= 100 -> len (p ++ k) = 101 ->
  match cut_line f with
  | Some (raw, r) => exists a', read_line_from (len p) f (p ++ k) = Ok (len (rstrip (firstn 100 (p ++ visible raw))), r, a')
                      /\ holds 101 a' (rstrip (firstn 100 (p ++ visible raw)))
  | None => exists a', read_line_from (len p) f (p ++ k) = Ok (-1, [], a') /\ holds 101 a' []
  end.
Proof.
  induction f as [|c f IH]; intros p k Hp Hk; cbn [cut_line read_line_from].
  - destruct (set_0 101 (p ++ k) Hk eq_refl) as (a' & E & H). exists a'. rewrite E. split; [reflexivity|exact H].
  - destruct (c =? 10) eqn:E10.
    + unfold visible. cbn [filter]. rewrite app_nil_r. rewrite firstn_all2 by (unfold len in Hp; lia).
      unfold len at 1. rewrite Nat2Z.id, trimmed_ok. cbn [bind]. destruct (rstrip_prefix p) as (q & E).
      assert (Hx : exists x y, p ++ k = rstrip p ++ x :: y).
      { destruct (q ++ k) as [|x y] eqn:Eq.
        - exfalso. rewrite E, <- app_assoc, Eq, app_nil_r in Hk. assert (len (rstrip p) <= len p) by (rewrite E at 2; rewrite len_app; pose proof (len_nonneg q); lia). lia.
        - exists x, y. rewrite <- Eq. rewrite app_assoc, <- E. reflexivity. }
      destruct Hx as (x & y & Hx). rewrite Hx. unfold set_nth.
      assert (Hr : len (rstrip p) < 101).
      { rewrite Hx, len_app, len_cons in Hk. pose proof (len_nonneg y). lia. }
      pose proof (len_nonneg (rstrip p)). rewrite Hx in Hk.
      replace ((len (rstrip p) <? 0) || (len (rstrip p ++ x :: y) <=? len (rstrip p))) with false by lia. cbn [bind].
      replace (Z.to_nat (len (rstrip p))) with (length (rstrip p)) by (unfold len; lia). rewrite upd_at. eexists. split; [reflexivity|]. split; [|eexists; reflexivity].
      rewrite len_app, len_cons in *. lia.
    + destruct (c =? 13) eqn:E13.
      * specialize (IH p k Hp Hk). destruct (cut_line f) as [[raw r]|]; [|exact IH]. unfold visible in *. cbn [filter]. rewrite E13. cbn [negb]. exact IH.
      * unfold max_text. destruct (len p <? 100) eqn:El.
        -- destruct k as [|x k]; [rewrite app_nil_r in Hk; lia|]. unfold set_nth. pose proof (len_nonneg p).
           replace ((len p <? 0) || (len (p ++ x :: k) <=? len p)) with false by lia. cbn [bind].
           replace (Z.to_nat (len p)) with (length p) by (unfold len; lia). rewrite upd_at.
           specialize (IH (p ++ [c]) k). rewrite !len_app, !len_cons, len_nil in IH. rewrite len_app, len_cons in Hk.
           rewrite <- !app_assoc in IH. cbn [app] in IH. replace (len p + (1 + 0)) with (len p + 1) in IH by lia.
           specialize (IH ltac:(lia) ltac:(lia)). destruct (cut_line f) as [[raw r]|]; [|exact IH].
           unfold visible in *. cbn [filter]. rewrite E13. cbn [negb]. rewrite <- !app_assoc in IH. exact IH.
        -- specialize (IH p k Hp Hk). destruct (cut_line f) as [[raw r]|]; [|exact IH]. unfold visible in *. cbn [filter]. rewrite E13. cbn [negb].
           assert (F : forall m, firstn 100 (p ++ m) = p).
           { intros m. rewrite firstn_app. unfold len in El, Hp. replace (100 - length p)%nat with 0%nat by lia.
             rewrite firstn_O, app_nil_r. apply firstn_all2. lia. }
           rewrite F in *. exact IH.
Qed.

Lemma read_line_ok f a : len a = 101 ->
  match cut_line f with
  | Some (raw, r) => exists a', read_line f a = Ok (len (clean raw), r, a') /\ holds 101 a' (clean raw)
  | None => exists a', read_line f a = Ok (-1, [], a') /\ holds 101 a' []
  end.
Proof. intros H. exact (read_line_from_ok f [] a ltac:(rewrite len_nil; lia) H). Qed.

(* the current line and the lines that follow *)
Definition current (f line : list Z) (ls : list (list Z)) : Prop := holds 101 line (hd [] ls) /\ lines f = tl ls.
Definition size (ls : list (list Z)) : Z := match ls with [] => -1 | l :: _ => len l end.

Lemma read_line_current f line ls : len line = 101 -> lines f = ls ->
  exists f' line', read_line f line = Ok (size ls, f', line') /\ current f' line' ls /\ (length f' <= length f)%nat /\ (ls <> [] -> (length f' < length f)%nat).
Proof.
  intros Hl E. pose proof (read_line_ok f line Hl) as H. rewrite lines_cut in E. destruct (cut_line f) as [[raw r]|] eqn:Ec; subst ls.
  - destruct H as (a' & E & Hh). exists r, a'. pose proof (cut_line_len _ _ _ Ec). repeat split; try assumption; try lia; apply Hh.
  - destruct H as (a' & E & Hh). exists [], a'. cbn [hd tl length]. repeat split; try assumption; try apply Hh; try lia. congruence.
Qed.

Lemma current_len f line ls : current f line ls -> len line = 101.
Proof. intros ((H & _) & _). exact H. Qed.

Lemma lines_short f l : In l (lines f) -> len l <= 100.
Proof. unfold lines. rewrite in_map_iff. intros (raw & <- & _). apply clean_len. Qed.

(* ---- fields ---- *)
Lemma starts_ok line l p : holds 101 line l -> (length (str p) <= 101)%nat -> Forall (fun c => c <> 0) (str p) -> starts line p = Ok (prefixed p l).
Proof.
  intros (Hl & r & E) Hp Hz. unfold starts, prefixed. rewrite get_range_ok by (unfold len in *; lia). cbn [bind]. f_equal.
  unfold slice. rewrite Z.sub_0_r. cbn [skipn Z.to_nat]. unfold len. rewrite Nat2Z.id, E. clear Hl Hp E. apply eq_true_iff_eq. rewrite !eqb_list_spec.
  revert l. induction (str p) as [|x s IH]; intros l; [reflexivity|]. cbn [length]. inversion_clear Hz.
  destruct l as [|c l]; cbn [firstn app]; [split; congruence|].
  split; intros E; injection E as -> E; f_equal; now apply IH.
Qed.

Ltac solve_nz := cbn [str]; repeat constructor; discriminate.

Lemma prefixed_len p l : prefixed p l = true -> len (str p) <= len l.
Proof.
  unfold prefixed. rewrite eqb_list_spec. intros E. unfold len. rewrite <- E at 1. rewrite firstn_length. lia.
Qed.

(* the guarded comparisons *)
Lemma guarded line l p n : holds 101 line l -> length (str p) = 9%nat -> Forall (fun c => c <> 0) (str p) -> (n = len l \/ n = -1 /\ l = []) ->
  (if 9 <=? n then starts line p else Ok false) = Ok (prefixed p l).
Proof.
  intros H Hp Hz Hn. destruct (9 <=? n) eqn:E; [apply starts_ok; [exact H|lia|exact Hz]|].
  destruct (prefixed p l) eqn:Ep; [|reflexivity]. apply prefixed_len in Ep. unfold len at 1 in Ep. rewrite Hp in Ep.
  destruct Hn as [-> | [-> ->]]; [lia|]. rewrite len_nil in Ep. lia.
Qed.

Lemma size_hd ls : size ls = len (hd [] ls) \/ size ls = -1 /\ hd [] ls = [].
Proof. destruct ls; cbn [size hd]; auto. Qed.

(* the text of a field with its NUL *)
Lemma field_range n line l : holds n line l -> 9 <= len l -> get_range line 9 (9 + (len l - 9) + 1) = Ok (field l ++ [0]).
Proof.
  intros H H9. pose proof (holds_len _ _ _ H). destruct H as (Hl & r & E). rewrite get_range_ok by lia. f_equal. unfold slice, field.
  replace (9 + (len l - 9) + 1 - 9) with (len l - 9 + 1) by lia. rewrite E, skipn_app. change (Z.to_nat 9) with 9%nat. unfold len in *.
  replace (9 - length l)%nat with 0%nat by lia. rewrite skipn_O.
  rewrite firstn_app, skipn_length. rewrite firstn_all2 by (rewrite skipn_length; lia). f_equal.
  replace (Z.to_nat (Z.of_nat (length l) - 9 + 1) - (length l - 9))%nat with 1%nat by lia. reflexivity.
Qed.

Lemma field_len l : 9 <= len l -> len (field l) = len l - 9.
Proof. unfold field, len. rewrite skipn_length. lia. Qed.

Lemma field_string n line l : holds n line l -> 9 <= len l -> string_at line 9 = Ok (cstr (field l)).
Proof. intros H H9. rewrite (holds_string _ _ _ _ H) by lia. reflexivity. Qed.

(* ---- comments ---- *)
Definition short (ls : list (list Z)) : Prop := forall l, In l ls -> len l <= 100.

Lemma short_lines f : short (lines f).
Proof. intros l. apply lines_short. Qed.

Lemma short_hd ls : short ls -> len (hd [] ls) <= 100.
Proof. intros H. destruct ls as [|l ls]; [cbn; lia|]. apply H. left. reflexivity. Qed.

Lemma short_tl ls : short ls -> short (tl ls).
Proof. intros H l Hl. apply H. destruct ls; [exact Hl|right; exact Hl]. Qed.

Lemma comment_loop ls : forall f line a t fuel, len line = 101 -> lines f = ls -> holds 1001 a t -> len t <= 991 -> (length f <= fuel)%nat ->
  exists f' line' a', loop fuel comment_step (f, line, a, len t) = Ok (f', line', a') /\
    current f' line' (snd (continued t ls)) /\ holds 1001 a' (fst (continued t ls)) /\ (length f' <= length f)%nat.
Proof.
  induction ls as [|l ls IH]; intros f line a t fuel Hl E Ha Ht Hf.
  - destruct (read_line_current f line [] Hl E) as (f' & line' & Er & Hc & Hle & _).
    exists f', line', a. split; [|cbn [continued fst snd]; auto].
    assert (Hs : comment_step (f, line, a, len t) = leave (f', line', a)).
    { unfold comment_step. rewrite Er. cbn [bind size]. change (9 <=? -1) with false. reflexivity. }
    destruct fuel; cbn [loop]; rewrite Hs; reflexivity.
  - destruct (read_line_current f line (l :: ls) Hl E) as (f' & line' & Er & Hc & Hle & Hlt). specialize (Hlt ltac:(discriminate)).
    destruct Hc as (Hh & Htl). cbn [hd tl] in Hh, Htl.
    assert (H100 : len l <= 100) by (apply (lines_short f); rewrite E; left; reflexivity).
    cbn [continued]. destruct (prefixed "         " l) eqn:Ep.
    + pose proof (prefixed_len _ _ Ep) as H9. change (len (str "         ")) with 9 in H9.
      destruct fuel as [|fuel]; [lia|].
      destruct (len t <? 900) eqn:E9.
      * assert (Hs : exists a', comment_step (f, line, a, len t) = continue_ (f', line', a', len (t ++ 10 :: field l)) /\ holds 1001 a' (t ++ 10 :: field l)).
        { unfold comment_step. rewrite Er. cbn [bind size]. rewrite (guarded line' l "         " (len l) Hh eq_refl ltac:(solve_nz) (or_introl eq_refl)). rewrite Ep. cbn [bind].
          unfold max_comment, max_text. replace (len t <? 1000 - 100) with true by lia.
          rewrite (field_range _ _ _ Hh) by lia.
          pose proof (len_nonneg t). destruct Ha as (Hla & r & Ea). unfold set_nth at 1. replace ((len t <? 0) || (len a <=? len t)) with false by lia. cbn [bind].
          rewrite Ea. replace (Z.to_nat (len t)) with (length t) by (unfold len; lia). rewrite upd_at.
          rewrite put_range_ok; [|lia|rewrite !len_app, !len_cons, field_len by lia; rewrite Ea, len_app, len_cons in Hla; rewrite len_nil; lia].
          cbn [bind]. eexists. split.
          - unfold continue_. do 3 f_equal. rewrite !len_app, len_cons, field_len by lia. lia.
          - rewrite Ea, len_app, len_cons in Hla. split; [rewrite len_splice; rewrite ?len_app, ?len_cons, ?len_nil, ?field_len by lia; lia|].
            unfold splice. replace (Z.to_nat (len t + 1)) with (S (length t)) by (unfold len; lia).
            replace (firstn (S (length t)) (t ++ 10 :: r)) with (t ++ [10]).
            2:{ rewrite firstn_app. rewrite firstn_all2 by lia. f_equal. replace (S (length t) - length t)%nat with 1%nat by lia. reflexivity. }
            eexists. rewrite <- !app_assoc. cbn [app]. reflexivity. }
        destruct Hs as (a' & Hs & Ha').
        destruct (IH f' line' a' (t ++ 10 :: field l) fuel (proj1 Hh) Htl Ha') as (f2 & line2 & a2 & E2 & H2); [rewrite len_app, len_cons, field_len by lia; lia|lia|].
        exists f2, line2, a2. cbn [loop]. rewrite Hs. unfold continue_. cbn [bind]. split; [exact E2|]. destruct H2 as (H2 & H3 & H4). repeat split; try apply H2; try apply H3. lia.
      * assert (Hs : comment_step (f, line, a, len t) = continue_ (f', line', a, len t)).
        { unfold comment_step. rewrite Er. cbn [bind size]. rewrite (guarded line' l "         " (len l) Hh eq_refl ltac:(solve_nz) (or_introl eq_refl)). rewrite Ep. cbn [bind].
          unfold max_comment, max_text. replace (len t <? 1000 - 100) with false by lia. reflexivity. }
        destruct (IH f' line' a t fuel (proj1 Hh) Htl Ha Ht) as (f2 & line2 & a2 & E2 & H2); [lia|].
        exists f2, line2, a2. cbn [loop]. rewrite Hs. unfold continue_. cbn [bind]. split; [exact E2|]. destruct H2 as (H2 & H3 & H4). repeat split; try apply H2; try apply H3. lia.
    + assert (Hs : comment_step (f, line, a, len t) = leave (f', line', a)).
      { unfold comment_step. rewrite Er. cbn [bind size]. rewrite (guarded line' l "         " (len l) Hh eq_refl ltac:(solve_nz) (or_introl eq_refl)). rewrite Ep. reflexivity. }
      exists f', line', a. split; [destruct fuel; cbn [loop]; rewrite Hs; reflexivity|]. cbn [fst snd]. repeat split; try assumption; apply Hh || apply Ha.
Qed.

Lemma read_comment_ok f line a ls old : len line = 101 -> lines f = ls -> len a = 1001 -> cstr a = cstr old ->
  exists f' line' a', read_comment f line a = Ok (f', line', a') /\
    current f' line' (snd (comment old ls)) /\ len a' = 1001 /\ cstr a' = cstr (fst (comment old ls)) /\ (length f' <= length f)%nat.
Proof.
  intros Hl E Ha Hold. destruct (read_line_current f line ls Hl E) as (f' & line' & Er & Hc & Hle & _).
  unfold read_comment. rewrite Er. cbn [bind]. destruct Hc as (Hh & Htl).
  rewrite (guarded line' (hd [] ls) "COMMENT: " _ Hh eq_refl ltac:(solve_nz) (size_hd ls)). cbn [bind].
  destruct ls as [|l ls]; cbn [hd tl size comment] in *.
  - exists f', line', a. cbn [prefixed firstn length str eqb_list]. repeat split; try assumption; try apply Hh.
  - destruct (prefixed "COMMENT: " l) eqn:Ep.
    + pose proof (prefixed_len _ _ Ep) as H9. change (len (str "COMMENT: ")) with 9 in H9.
      assert (H100 : len l <= 100) by (apply (lines_short f); rewrite E; left; reflexivity).
      rewrite (field_range _ _ _ Hh) by lia. cbn [bind].
      destruct (fresh_put 1001 a (field l) Ha) as (a' & Ep' & Ha'); [rewrite field_len by lia; lia|]. rewrite Ep'. cbn [bind].
      rewrite <- (field_len l) by lia.
      destruct (comment_loop ls f' line' a' (field l) (length f') (proj1 Hh) Htl Ha') as (f2 & line2 & a2 & E2 & H2 & H3 & H4); [rewrite field_len by lia; lia|lia|].
      exists f2, line2, a2. repeat split; try assumption; try apply H2; try apply H3; [apply (holds_cstr _ _ _ H3)|lia].
    + exists f', line', a. repeat split; try assumption; apply Hh.
Qed.
