(* Facts about the STIL parser: numbers, times, covers and names. *)
From Coq Require Import String.
From Verif Require Import Base BaseFacts Loop InfoModel WriterModel WriterProofs StoreProofs StilModel StilSpec StilProofs.

(* ---- numbers ---- *)
Definition value_from (v : Z) (d : list Z) : Z := fold_left (fun v c => 10 * v + (c - 48)) d v.

Lemma digit_range c : digit c = true -> 48 <= c <= 57.
Proof. unfold digit. lia. Qed.

Lemma value_from_ge d : forall v, 0 <= v -> Forall (fun c => digit c = true) d -> v <= value_from v d.
Proof.
  induction d as [|c d IH]; intros v Hv Hd; cbn [value_from fold_left]; [lia|]. inversion_clear Hd as [|? ? Hc Hd'].
  apply digit_range in Hc. specialize (IH (10 * v + (c - 48)) ltac:(lia) Hd'). unfold value_from in IH. lia.
Qed.

Lemma take_while_all p l : Forall (fun c => p c = true) (take_while p l).
Proof. induction l as [|c l IH]; cbn [take_while]; [constructor|]. destruct (p c) eqn:E; constructor; auto. Qed.

Lemma skipn_1 {A} (l : list A) i c r : skipn i l = c :: r -> skipn (S i) l = r.
Proof. intros E. replace (S i) with (i + 1)%nat by lia. rewrite <- skipn_skipn_plus, E. reflexivity. Qed.

Lemma skipn_cons_at l i c r : 0 <= i -> skipn (Z.to_nat i) l = c :: r -> at_ l i = c /\ i < len l.
Proof.
  intros Hi E. assert (H : i < len l).
  { destruct (Z_lt_ge_dec i (len l)) as [C|C]; [exact C|]. rewrite skipn_all2 in E by (unfold len in C; lia). discriminate. }
  split; [|exact H]. rewrite skipn_at in E by lia. congruence.
Qed.

Lemma skipn_nil_at (l : list Z) i : 0 <= i <= len l -> skipn (Z.to_nat i) l = [] -> i = len l.
Proof. intros Hi E. assert (H : length (skipn (Z.to_nat i) l) = 0%nat) by now rewrite E. rewrite skipn_length in H. unfold len in *. lia. Qed.

Lemma parse_digits_ok line l pos : holds 101 line l -> forall s i v n,
  skipn (Z.to_nat i) l = s -> 0 <= pos <= i -> i <= len l -> 0 <= v < 100 -> (length s <= n)%nat ->
  parse_digits n line pos i v = Ok (
    let d := take_while digit s in
    if value_from v d <? 100 then
      match d with [] => if i =? pos then (-1, pos) else (v, i) | _ => (value_from v d, i + len d) end
    else (-1, pos)).
Proof.
  intros Hh. induction s as [|c s IH]; intros i v n Es Hp Hi Hv Hn; cbv zeta.
  - pose proof (skipn_nil_at l i ltac:(lia) Es) as El. cbn [take_while value_from fold_left].
    assert (Eg : parse_digits n line pos i v = (if i =? pos then Ok (-1, pos) else Ok (v, i))).
    { destruct n; cbn [parse_digits]; rewrite (holds_get _ _ _ _ Hh) by lia; rewrite at_end by lia; reflexivity. }
    rewrite Eg. replace (v <? 100) with true by lia. destruct (i =? pos); reflexivity.
  - destruct (skipn_cons_at l i c s ltac:(lia) Es) as [Ec Hlt]. cbn [length] in Hn. destruct n as [|n]; [lia|].
    cbn [parse_digits take_while]. rewrite (holds_get _ _ _ _ Hh) by lia. rewrite Ec. cbn [bind]. destruct (digit c) eqn:Ed.
    + pose proof (digit_range _ Ed). destruct (10 <=? v) eqn:E10.
      * cbn [value_from fold_left]. pose proof (value_from_ge (take_while digit s) (10 * v + (c - 48)) ltac:(lia) (take_while_all _ _)) as Hg.
        unfold value_from in Hg. destruct (fold_left _ _ (10 * v + (c - 48)) <? 100) eqn:E; [lia|reflexivity].
      * rewrite (IH (i + 1) (10 * v + c - 48) n); try lia; [|replace (Z.to_nat (i + 1)) with (S (Z.to_nat i)) by lia; now apply skipn_1 with c].
        cbv zeta. cbn [value_from fold_left]. replace (10 * v + (c - 48)) with (10 * v + c - 48) by lia.
        unfold value_from. destruct (fold_left _ (take_while digit s) (10 * v + c - 48) <? 100) eqn:E; [|reflexivity].
        destruct (take_while digit s) as [|c' d].
        -- replace (i + 1 =? pos) with false by lia. reflexivity.
        -- f_equal. f_equal. rewrite !len_cons. lia.
    + cbn [value_from fold_left]. replace (v <? 100) with true by lia. destruct (i =? pos); reflexivity.
Qed.

Lemma drop_while_skipn p l : drop_while p l = skipn (length (take_while p l)) l.
Proof. induction l as [|c l IH]; cbn [drop_while take_while]; [reflexivity|]. destruct (p c); cbn [length skipn]; [exact IH|reflexivity]. Qed.

(* position p of the line is followed by o; None is the position after the NUL *)
Definition where_ (l : list Z) (p : Z) (o : option (list Z)) : Prop :=
  match o with Some r => 0 <= p <= len l /\ skipn (Z.to_nat p) l = r | None => p = len l + 1 end.

Lemma take_while_len p l : len (take_while p l) <= len l.
Proof. induction l as [|c l IH]; cbn [take_while]; [lia|]. destruct (p c); rewrite ?len_cons, ?len_nil; pose proof (len_nonneg l); lia. Qed.

Lemma parse_int_ok line l pos s : holds 101 line l -> where_ l pos (Some s) ->
  match number s with
  | Some (v, r) => exists p, parse_int line pos = Ok (v, p) /\ where_ l p (Some r) /\ pos < p /\ 0 <= v
  | None => parse_int line pos = Ok (-1, pos)
  end.
Proof.
  intros Hh (Hp & Es). pose proof (holds_len _ _ _ Hh) as Hl. unfold parse_int.
  rewrite (parse_digits_ok line l pos Hh s pos 0) by (try lia; try exact Es; rewrite <- Es, skipn_length; destruct Hh as (Hh & _); unfold len in *; lia).
  cbv zeta. unfold number, value. change (fold_left _ (take_while digit s) 0) with (value_from 0 (take_while digit s)).
  pose proof (take_while_len digit s) as Hd. pose proof (value_from_ge (take_while digit s) 0 ltac:(lia) (take_while_all _ _)) as Hv.
  pose proof (drop_while_skipn digit s) as Hs.
  destruct (take_while digit s) as [|c d].
  - cbn [value_from fold_left]. change (0 <? 100) with true. rewrite Z.eqb_refl. reflexivity.
  - destruct (value_from 0 (c :: d) <? 100); [|reflexivity]. exists (pos + len (c :: d)). split; [reflexivity|].
    assert (len s = len l - pos) by (rewrite <- Es; unfold len; rewrite skipn_length; unfold len in Hp; lia).
    rewrite len_cons in *. pose proof (len_nonneg d). split; [|lia]. split; [lia|]. rewrite Hs, <- Es, skipn_skipn_plus. f_equal.
    unfold len in *. cbn [length]. lia.
Qed.

Lemma parse_timestamp_ok line l pos s : holds 101 line l -> where_ l pos (Some s) ->
  exists p, parse_timestamp line pos = Ok (fst (stamp s), p) /\ where_ l p (snd (stamp s)) /\ pos <= p.
Proof.
  intros Hh Hw. unfold parse_timestamp, stamp. pose proof (parse_int_ok line l pos s Hh Hw) as H. destruct (number s) as [[m r]|].
  - destruct H as (p & E & Hwp & Hpp & Hm). rewrite E. cbn [bind]. replace (0 <=? m) with true by lia. pose proof Hwp as (Hp1 & Hp2).
    rewrite (holds_get _ _ _ _ Hh) by lia. cbn [bind]. destruct r as [|c r].
    + rewrite at_end by (rewrite (skipn_nil_at _ _ Hp1 Hp2); lia). change (0 =? 58) with false. cbn iota.
      exists (p + 1). cbn [fst snd where_]. rewrite (skipn_nil_at _ _ Hp1 Hp2). repeat split. pose proof (skipn_nil_at _ _ Hp1 Hp2). lia.
    + destruct (skipn_cons_at _ _ _ _ (proj1 Hp1) Hp2) as [Ea Hlt]. rewrite Ea.
      assert (Hw1 : where_ l (p + 1) (Some r)).
      { split; [lia|]. replace (Z.to_nat (p + 1)) with (S (Z.to_nat p)) by lia. now apply skipn_1 with c. }
      destruct (c =? 58) eqn:Ec.
      * pose proof (parse_int_ok line l (p + 1) r Hh Hw1) as H. destruct (number r) as [[x r']|].
        -- destruct H as (p' & E' & Hwp' & Hpp' & Hx). rewrite E'. cbn [bind fst snd]. replace (0 <=? x) with true by lia. exists p'. repeat split; try apply Hwp'. lia.
        -- rewrite H. cbn [bind fst snd]. exists (p + 1). repeat split; try apply Hw1. lia.
      * exists (p + 1). cbn [fst snd]. repeat split; try apply Hw1. lia.
  - rewrite H. cbn [bind fst snd]. exists pos. repeat split; try apply Hw. lia.
Qed.

(* ---- the title of a cover ---- *)
Lemma last_paren_range t k : last_paren t = Some k -> 0 <= k < len t.
Proof.
  revert k. induction t as [|c t IH]; intros k E; cbn [last_paren] in E; [discriminate|]. rewrite len_cons.
  destruct (last_paren t) as [i|]; [specialize (IH i eq_refl); assert (k = i + 1) by congruence; lia|].
  destruct (c =? 40); [|discriminate]. assert (k = 0) by congruence. pose proof (len_nonneg t). lia.
Qed.

Lemma last_paren_app p t : forallb (fun c => negb (c =? 40)) p = true -> last_paren (p ++ t) = match last_paren t with Some k => Some (len p + k) | None => None end.
Proof.
  induction p as [|c p IH]; intros H; cbn [app last_paren].
  - destruct (last_paren t); reflexivity.
  - cbn [forallb] in H. apply andb_prop in H. destruct H as [H1 H2]. rewrite (IH H2). rewrite len_cons. destruct (last_paren t).
    + f_equal. lia.
    + destruct (c =? 40); [discriminate|reflexivity].
Qed.

Lemma cstr_app_nz p t : forallb (fun c => negb (c =? 0)) p = true -> cstr (p ++ t) = p ++ cstr t.
Proof.
  induction p as [|c p IH]; intros H; cbn [app cstr]; [reflexivity|]. cbn [forallb] in H. apply andb_prop in H. destruct H as [H1 H2].
  destruct (c =? 0); [discriminate|]. now rewrite IH.
Qed.

Lemma prefixed_split p l : prefixed p l = true -> l = str p ++ skipn (length (str p)) l.
Proof. unfold prefixed. rewrite eqb_list_spec. intros E. rewrite <- E at 1. symmetry. apply firstn_skipn. Qed.

Lemma cstr_firstn l n : (n <= length (cstr l))%nat -> cstr (firstn n l) = firstn n (cstr l).
Proof.
  revert n. induction l as [|c l IH]; intros n Hn; cbn [cstr] in *; [destruct n; [reflexivity|cbn in Hn; lia]|].
  destruct n as [|n]; [reflexivity|]. destruct (c =? 0) eqn:E; [cbn in Hn; lia|]. cbn [firstn cstr]. rewrite E. f_equal. apply IH. cbn in Hn. lia.
Qed.

Lemma at_cstr l i : 0 <= i < len (cstr l) -> at_ (cstr l) i = at_ l i.
Proof.
  revert i. induction l as [|c l IH]; intros i Hi; cbn [cstr] in *; [change (len (@nil Z)) with 0 in Hi; lia|].
  destruct (c =? 0) eqn:E; [change (len (@nil Z)) with 0 in Hi; lia|]. rewrite len_cons in Hi. destruct (Z.eq_dec i 0) as [->|N]; [now rewrite !at_cons_0|].
  rewrite !at_cons_S by lia. apply IH. lia.
Qed.

(* storing a NUL at position p of the line *)
Lemma holds_cut n line l p : holds n line l -> 0 <= p < len l ->
  exists line', set_nth line p 0 = Ok line' /\ len line' = n /\ line' = firstn (Z.to_nat p) l ++ 0 :: skipn (Z.to_nat p + 1) line.
Proof.
  intros H Hp. pose proof (holds_len _ _ _ H). destruct H as (Hl & r & E). unfold set_nth. replace ((p <? 0) || (len line <=? p)) with false by lia.
  eexists. split; [reflexivity|]. rewrite len_upd. split; [exact Hl|]. rewrite upd_firstn by (unfold len in *; lia).
  replace (S (Z.to_nat p)) with (Z.to_nat p + 1)%nat by lia. f_equal. rewrite E at 1. rewrite firstn_app. unfold len in Hp.
  replace (Z.to_nat p - length l)%nat with 0%nat by lia. now rewrite firstn_O, app_nil_r.
Qed.

Section Load.
Variable all : list (list Z).          (* the lines of the file *)
Definition too_long (r : ub_reason) : Prop := r = UbRead /\ exists l, In l all /\ dangling l = true /\ 99 <= len l.

Lemma cover_times_ok line l : holds 101 line l -> In l all -> prefixed "  TITLE: " l = true ->
  wpg too_long False (cover_times line) (fun x => let '(start, finish, line') := x in
    len line' = 101 /\ exists b t, string_at line' 9 = Ok t /\ times l b = (start, finish, t) /\ len t <= 92).
Proof.
  intros Hh Hin Hp. pose proof (holds_len _ _ _ Hh) as Hlen. pose proof (prefixed_len _ _ Hp) as H9. change (len (str "  TITLE: ")) with 9 in H9.
  pose proof (prefixed_split _ _ Hp) as El. change (skipn (length (str "  TITLE: ")) l) with (field l) in El.
  assert (Hf : len (field l) = len l - 9) by (apply field_len; lia).
  unfold cover_times. rewrite (holds_string _ _ _ 0 Hh) by lia. cbn [skipn Z.to_nat bind].
  replace (cstr l) with (str "  TITLE: " ++ cstr (field l)) by (rewrite El at 2; symmetry; apply cstr_app_nz; reflexivity).
  rewrite last_paren_app by reflexivity. change (len (str "  TITLE: ")) with 9.
  pose proof (len_cstr (field l)) as Hc.
  assert (Hd : forall k, last_paren (cstr (field l)) = Some k ->
    snd (range (skipn (9 + Z.to_nat k + 1) l)) = None -> dangling l = true).
  { intros k E E'. unfold dangling. rewrite Hp, E. destruct (range _) as [[? ?] [|]]; [discriminate|reflexivity]. }
  destruct (last_paren (cstr (field l))) as [k|] eqn:Ek.
  2:{ cbn [wpg]. split; [apply Hh|]. exists true, (cstr (field l)). unfold times. rewrite Ek. rewrite (field_string _ _ _ Hh) by lia. repeat split. lia. }
  pose proof (last_paren_range _ _ Ek) as Hk.
  assert (Hw : where_ l (9 + k + 1) (Some (skipn (9 + Z.to_nat k + 1) l))).
  { split; [lia|]. f_equal. lia. }
  (* the times *)
  assert (Hr : exists start finish i, 
     (forall P, wpg too_long False (
        c <- get line i ;;
        c1 <- (if c =? 41 then get line (i + 1) else Ok 1) ;;
        if (c =? 41) && (c1 =? 0) then
          before <- get line (9 + k - 1) ;;
          let len := if before =? 32 then 9 + k - 1 else 9 + k in
          line <- set_nth line len 0 ;;
          Ok (start, finish, line)
        else Ok (-1, -1, line)) P ->
      wpg too_long False (
        '(startSeconds, i) <- parse_timestamp line (9 + k + 1) ;;
        dash <- (if 0 <=? startSeconds then c <- get line i ;; Ok (c =? 45) else Ok false) ;;
        '(endSeconds, i) <- (if dash then parse_timestamp line (i + 1) else Ok (-1, i)) ;;
        c <- get line i ;;
        c1 <- (if c =? 41 then get line (i + 1) else Ok 1) ;;
        if (c =? 41) && (c1 =? 0) then
          before <- get line (9 + k - 1) ;;
          let len := if before =? 32 then 9 + k - 1 else 9 + k in
          line <- set_nth line len 0 ;;
          Ok (startSeconds, endSeconds, line)
        else Ok (-1, -1, line)) P) /\
     exists o, range (skipn (9 + Z.to_nat k + 1) l) = (start, finish, o) /\ where_ l i o /\ 9 + k + 1 <= i).
  { destruct (parse_timestamp_ok line l _ _ Hh Hw) as (p & E & Hwp & Hpp). unfold range.
    destruct (stamp (skipn (9 + Z.to_nat k + 1) l)) as [start o] eqn:Es. cbn [fst snd] in *.
    destruct o as [[|c r]|].
    - (* at the NUL *)
      exists start, (-1), p. split.
      + intros P HP. rewrite E. cbn [bind]. destruct Hwp as (Hp1 & Hp2). pose proof (skipn_nil_at _ _ Hp1 Hp2) as Ep.
        assert (Ed : (if 0 <=? start then c <- get line p ;; Ok (c =? 45) else Ok false) = Ok false).
        { rewrite (holds_get _ _ _ p Hh) by lia. rewrite at_end by lia. destruct (0 <=? start); reflexivity. }
        rewrite Ed. cbn [bind]. exact HP.
      + eexists. split; [reflexivity|]. auto.
    - destruct Hwp as (Hp1 & Hp2). destruct (skipn_cons_at _ _ _ _ (proj1 Hp1) Hp2) as [Ea Hlt].
      destruct ((0 <=? start) && (c =? 45)) eqn:Eb.
      + apply andb_prop in Eb. destruct Eb as [Eb1 Eb2].
        assert (Hw2 : where_ l (p + 1) (Some r)).
        { split; [lia|]. replace (Z.to_nat (p + 1)) with (S (Z.to_nat p)) by lia. now apply skipn_1 with c. }
        destruct (parse_timestamp_ok line l _ _ Hh Hw2) as (p2 & E2 & Hwp2 & Hpp2). destruct (stamp r) as [finish o] eqn:Es2. cbn [fst snd] in *.
        exists start, finish, p2. split.
        * intros P HP. rewrite E. cbn [bind]. rewrite Eb1. rewrite (holds_get _ _ _ p Hh) by lia. cbn [bind]. rewrite Ea, Eb2. cbn [bind]. rewrite E2. cbn [bind]. exact HP.
        * eexists. split; [reflexivity|]. split; [exact Hwp2|lia].
      + exists start, (-1), p. split.
        * intros P HP. rewrite E. cbn [bind].
          assert (Ed : (if 0 <=? start then c <- get line p ;; Ok (c =? 45) else Ok false) = Ok false).
          { rewrite (holds_get _ _ _ p Hh) by lia. rewrite Ea. destruct (0 <=? start); [|reflexivity]. cbn [bind]. destruct (c =? 45); [discriminate Eb|reflexivity]. }
          rewrite Ed. cbn [bind]. exact HP.
        * eexists. split; [reflexivity|]. split; [split; assumption|exact Hpp].
    - (* past the NUL *)
      assert (Hs : start = -1).
      { unfold stamp in Es. destruct (number _) as [[m [|c r]]|]; [congruence| |congruence].
        destruct (c =? 58); [destruct (number r) as [[? ?]|]; congruence|congruence]. }
      exists start, (-1), p. split.
      + intros P HP. rewrite E. cbn [bind]. rewrite Hs in *. change (0 <=? -1) with false. cbn [bind]. exact HP.
      + eexists. split; [reflexivity|]. auto. }
  destruct Hr as (start & finish & i & Hr & o & Er & Hwi & Hi). cbv zeta in Hr. cbv zeta. apply Hr. clear Hr.
  (* the result of cutting and of not cutting *)
  assert (Hcut : forall b, match o with Some r => closes r | None => b end = true ->
    wpg too_long False (before <- get line (9 + k - 1) ;; line <- set_nth line (if before =? 32 then 9 + k - 1 else 9 + k) 0 ;; Ok (start, finish, line))
      (fun x => let '(start, finish, line') := x in len line' = 101 /\ exists b t, string_at line' 9 = Ok t /\ times l b = (start, finish, t) /\ len t <= 92)).
  { intros b Hb. rewrite (holds_get _ _ _ _ Hh) by lia. cbn [bind].
    assert (Hat : 0 < k -> at_ l (9 + k - 1) = at_ (cstr (field l)) (k - 1)).
    { intros Hk0. rewrite at_cstr by lia. rewrite El at 1. rewrite at_app2 by (change (len (str "  TITLE: ")) with 9; lia).
      change (len (str "  TITLE: ")) with 9. f_equal. lia. }
    set (p := if at_ l (9 + k - 1) =? 32 then 9 + k - 1 else 9 + k).
    assert (Hpr : 9 + k - 1 <= p <= 9 + k) by (unfold p; destruct (_ =? 32); lia).
    destruct (holds_cut _ _ _ p Hh) as (line' & E & Hl' & Hc'); [lia|]. rewrite E. cbn [bind wpg]. split; [exact Hl'|]. exists b.
    unfold times. rewrite Ek, Er, Hb. unfold string_at. rewrite Hc'. change (Z.to_nat 9) with 9%nat.
    destruct (k =? 0) eqn:E0.
    - assert (k = 0) by lia. subst k. assert (E8 : at_ l 8 = 32) by (rewrite El; reflexivity).
      assert (p = 8) by (unfold p; change (9 + 0 - 1) with 8; rewrite E8; reflexivity).
      exists (cstr (field l)). split; [|split; [reflexivity|lia]]. rewrite H. change (Z.to_nat 8) with 8%nat. change (8 + 1)%nat with 9%nat.
      replace (skipn 9 (firstn 8 l ++ 0 :: skipn 9 line)) with (skipn 9 line).
      + destruct Hh as (_ & r & ->). rewrite skipn_app. unfold len in H9. replace (9 - length l)%nat with 0%nat by lia. rewrite skipn_O. apply string_in_cstr.
      + assert (length (firstn 8 l) = 8%nat) by (rewrite firstn_length; unfold len in H9; lia).
        rewrite skipn_app, H0. rewrite (skipn_all2 (firstn 8 l)) by lia. reflexivity.
    - assert (Hk0 : 0 < k) by lia. specialize (Hat Hk0).
      exists (cstr (skipn 9 (firstn (Z.to_nat p) l))). split; [|split].
      + rewrite skipn_app. replace (9 - length (firstn (Z.to_nat p) l))%nat with 0%nat by (rewrite firstn_length; unfold len in *; lia).
        rewrite skipn_O. apply string_in_cstr.
      + f_equal. assert (Hn : (if at_ (cstr (field l)) (k - 1) =? 32 then k - 1 else k) = p - 9).
        { unfold p. rewrite Hat. destruct (at_ (cstr (field l)) (k - 1) =? 32); clear; lia. }
        rewrite Hn, skipn_firstn_comm. change (skipn 9 l) with (field l).
        replace (Z.to_nat p - 9)%nat with (Z.to_nat (p - 9)) by lia. symmetry. apply cstr_firstn. unfold len in *. lia.
      + pose proof (len_cstr (skipn 9 (firstn (Z.to_nat p) l))). assert (len (skipn 9 (firstn (Z.to_nat p) l)) <= 92); [|lia].
        unfold len in *. rewrite skipn_length, firstn_length. lia. }
  assert (Hno : forall b, match o with Some r => closes r | None => b end = false ->
    len line = 101 /\ exists b t, string_at line 9 = Ok t /\ times l b = (-1, -1, t) /\ len t <= 92).
  { intros b Hb. split; [apply Hh|]. exists b, (cstr (field l)). rewrite (field_string _ _ _ Hh) by lia. split; [reflexivity|]. unfold times. rewrite Ek, Er, Hb. split; [reflexivity|lia]. }
  destruct o as [r|].
  - destruct Hwi as (Hi1 & Hi2). rewrite (holds_get _ _ _ i Hh) by lia. cbn [bind]. destruct r as [|c r].
    + rewrite at_end by (rewrite (skipn_nil_at _ _ Hi1 Hi2); lia). cbn [bind]. change ((0 =? 41) && (1 =? 0)) with false. cbn [wpg]. apply (Hno true). reflexivity.
    + destruct (skipn_cons_at _ _ _ _ (proj1 Hi1) Hi2) as [Ea Hlt]. rewrite Ea. cbn [closes] in *. destruct (c =? 41) eqn:Ec.
      * rewrite (holds_get _ _ _ (i + 1) Hh) by lia. cbn [bind andb].
        assert (Eat : at_ l (i + 1) = at_ r 0).
        { unfold at_. change (Z.to_nat 0) with 0%nat. replace r with (skipn (Z.to_nat (i + 1)) l) by (replace (Z.to_nat (i + 1)) with (S (Z.to_nat i)) by lia; now apply skipn_1 with c).
          generalize (Z.to_nat (i + 1)). clear. intros n. revert n. induction l as [|x l IH]; intros [|n]; cbn [nth skipn]; auto. }
        rewrite Eat. destruct (at_ r 0 =? 0) eqn:E0; [apply (Hcut true); reflexivity|]. cbn [wpg]. apply (Hno true). reflexivity.
      * cbn [bind andb wpg]. apply (Hno true). reflexivity.
  - cbn [where_] in Hwi. rewrite Hwi.
    assert (Hub : 99 <= len l -> too_long UbRead).
    { intros H99. split; [reflexivity|]. exists l. split; [exact Hin|]. split; [|exact H99]. apply (Hd k eq_refl). rewrite Er. reflexivity. }
    apply wpg_bind, wpg_get; [intros Hr1|destruct (Z_le_gt_dec 99 (len l)); [right; auto|left; destruct Hh as (Hh & _); lia]].
    destruct (at_ line (len l + 1) =? 41).
    + apply wpg_bind, wpg_get; [intros Hr2|destruct (Z_le_gt_dec 99 (len l)); [right; auto|left; destruct Hh as (Hh & _); lia]].
      cbn [andb]. destruct (at_ line (len l + 1 + 1) =? 0); [apply (Hcut true); reflexivity|]. cbn [wpg]. apply (Hno false). reflexivity.
    + cbn [bind andb wpg]. apply (Hno false). reflexivity.
Qed.
End Load.
