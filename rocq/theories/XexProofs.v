(* The title screen: bounds of the three buffers, layout of the texts. *)
From Coq Require Import String.
From Verif Require Import Base BaseFacts InfoModel InfoSpec InfoProofs Resources WriterModel SapSpec XexSpec.

(* ---- the formatter without the buffer bound ---- *)
Definition padp (dest : list Z) (e : Z) : list Z := dest ++ repeat 32 (Z.to_nat ((e - len dest) mod 32)).

Definition author_break (dest r : list Z) (author : bool) : bool :=
  author && (match r with 38 :: _ => true | _ => false end)
    && (author_len r <=? 32) && (32 <? Z.rem (len dest) 32 + 1 + author_len r).

Definition word_break (dest r : list Z) : bool :=
  (word_len r <=? 32) && (32 <? Z.rem (len dest) 32 + 1 + word_len r).

Fixpoint fmt (dest src : list Z) (author : bool) : list Z :=
  match src with
  | [] => dest
  | c :: r =>
    if c =? 32 then
      if author_break dest r author then fmt (padp dest 1) r author
      else if word_break dest r then fmt (padp dest 0) r author
      else fmt (dest ++ [32]) r author
    else fmt (dest ++ [u8 c]) r author
  end.

Lemma len_snoc (dest : list Z) x : len (dest ++ [x]) = len dest + 1.
Proof. rewrite len_app. reflexivity. Qed.

Lemma len_padp dest e : len (padp dest e) = len dest + (e - len dest) mod 32.
Proof. unfold padp. rewrite len_app, len_repeat. lia. Qed.

Lemma rem_mod (dest : list Z) : Z.rem (len dest) 32 = len dest mod 32.
Proof. apply Z.rem_mod_nonneg; [apply len_nonneg|lia]. Qed.

(* a computation that appends to the buffer: it fails exactly when the result is too long *)
Definition bounded (m : outcome (list Z)) (d : list Z) : Prop :=
  if len d <=? 256 then m = Ok d else m = UB UbWrite.

Lemma pad_bounded fuel dest e : 0 <= e < 32 -> (e - len dest) mod 32 <= Z.of_nat fuel -> len dest <= 256 ->
  bounded (pad_xex_info fuel dest e) (padp dest e).
Proof.
  revert dest. induction fuel as [|fuel IH]; intros dest He Hf Hd; cbn [pad_xex_info]; rewrite rem_mod.
  - assert (Z0 : (e - len dest) mod 32 = 0) by lia. replace (len dest mod 32 =? e) with true by lia. cbn [negb].
    unfold bounded, padp. rewrite Z0. cbn [Z.to_nat repeat]. rewrite app_nil_r. replace (len dest <=? 256) with true by lia. reflexivity.
  - destruct (Z.eqb_spec (len dest mod 32) e) as [E|E]; cbn [negb].
    + assert (Z0 : (e - len dest) mod 32 = 0) by lia. unfold bounded, padp. rewrite Z0. cbn [Z.to_nat repeat]. rewrite app_nil_r.
      replace (len dest <=? 256) with true by lia. reflexivity.
    + unfold push. destruct (Z.ltb_spec (len dest) 256) as [C|C]; cbn [bind].
      * change (u8 32) with 32. specialize (IH (dest ++ [32])). rewrite len_snoc in IH.
        assert (K : padp (dest ++ [32]) e = padp dest e).
        { unfold padp. rewrite len_snoc, <- app_assoc. f_equal.
          replace (Z.to_nat ((e - len dest) mod 32)) with (S (Z.to_nat ((e - (len dest + 1)) mod 32))) by lia. reflexivity. }
        rewrite K in IH. apply IH; lia.
      * unfold bounded. rewrite len_padp. replace (len dest + (e - len dest) mod 32 <=? 256) with false by lia. reflexivity.
Qed.

Lemma fmt_grows dest src a : len dest <= len (fmt dest src a).
Proof.
  revert dest. induction src as [|c r IH]; intros dest; cbn [fmt]; [lia|].
  assert (G : forall e, len dest <= len (padp dest e)) by (intros e; rewrite len_padp; lia).
  destruct (c =? 32); [destruct (author_break dest r a); [|destruct (word_break dest r)]|].
  - specialize (G 1). specialize (IH (padp dest 1)). lia.
  - specialize (G 0). specialize (IH (padp dest 0)). lia.
  - specialize (IH (dest ++ [32])). rewrite len_snoc in IH. lia.
  - specialize (IH (dest ++ [u8 c])). rewrite len_snoc in IH. lia.
Qed.

Lemma fmt_bounded dest src a : len dest <= 256 -> bounded (format_xex_loop dest src a) (fmt dest src a).
Proof.
  revert dest. induction src as [|c r IH]; intros dest Hd; cbn [format_xex_loop fmt].
  { unfold bounded. replace (len dest <=? 256) with true by lia. reflexivity. }
  assert (PUSH : forall x, bounded (d <- push dest x ;; format_xex_loop d r a) (fmt (dest ++ [u8 x]) r a)).
  { intros x. unfold push. destruct (Z.ltb_spec (len dest) 256) as [C|C]; cbn [bind].
    - apply IH. rewrite len_snoc. lia.
    - unfold bounded. pose proof (fmt_grows (dest ++ [u8 x]) r a) as G. rewrite len_snoc in G.
      match goal with |- context [?b <=? 256] => replace (b <=? 256) with false by lia end. reflexivity. }
  assert (PAD : forall e, 0 <= e < 32 -> bounded (d <- pad_xex_info 32 dest e ;; format_xex_loop d r a) (fmt (padp dest e) r a)).
  { intros e He. pose proof (pad_bounded 32 dest e He ltac:(lia) Hd) as P. unfold bounded in P.
    destruct (Z.leb_spec (len (padp dest e)) 256) as [C|C]; rewrite P; cbn [bind].
    - apply IH. exact C.
    - unfold bounded. pose proof (fmt_grows (padp dest e) r a) as G.
      match goal with |- context [?b <=? 256] => replace (b <=? 256) with false by lia end. reflexivity. }
  unfold author_break, word_break.
  destruct (Z.eqb_spec c 32) as [->|N]; [|apply PUSH].
  match goal with |- context [if ?b then _ else _] => destruct b end; [apply PAD; lia|].
  match goal with |- context [if ?b then _ else _] => destruct b end; [apply PAD; lia|].
  apply (PUSH 32).
Qed.

Definition fmt_all (dest : list Z) (e : Z) (src : list Z) (a : bool) : list Z := padp (fmt dest src a) e.

Lemma format_bounded dest e src a : len dest <= 256 -> 0 <= e < 32 -> bounded (format_xex_info_text dest e src a) (fmt_all dest e src a).
Proof.
  intros Hd He. unfold format_xex_info_text. pose proof (fmt_bounded dest src a Hd) as F. unfold bounded in F.
  destruct (Z.leb_spec (len (fmt dest src a)) 256) as [C|C]; rewrite F; cbn [bind].
  - apply pad_bounded; lia.
  - unfold bounded, fmt_all. rewrite len_padp. match goal with |- context [?b <=? 256] => replace (b <=? 256) with false by lia end. reflexivity.
Qed.

(* ---- words and segments ---- *)
Lemma word_split r : exists w rest, r = w ++ rest /\ len w = word_len r /\ Forall (fun c => c <> 32) w /\ (rest = [] \/ exists t, rest = 32 :: t).
Proof.
  induction r as [|c r (w & rest & E & L & F & R)].
  - exists [], []. repeat split; auto.
  - cbn [word_len]. destruct (Z.eqb_spec c 32) as [->|N].
    + exists [], (32 :: r). repeat split; auto. right. eauto.
    + exists (c :: w), rest. rewrite len_cons, L. subst r. repeat split; auto.
Qed.

Lemma word_len_nonneg r : 0 <= word_len r.
Proof. induction r as [|c r IH]; cbn [word_len]; [lia|]. destruct (c =? 32); lia. Qed.

Lemma word_len_app w rest : Forall (fun c => c <> 32) w -> word_len (w ++ rest) = len w + word_len rest.
Proof.
  induction w as [|c w IH]; intros F; cbn [app word_len]; [rewrite len_nil; lia|].
  apply Forall_cons_iff in F. destruct F as [N F]. rewrite len_cons, IH by exact F. replace (c =? 32) with false by lia. lia.
Qed.

Lemma fmt_word dest w rest a : Forall (fun c => c <> 32) w -> fmt dest (w ++ rest) a = fmt (dest ++ map u8 w) rest a.
Proof.
  revert dest. induction w as [|c w IH]; intros dest F; cbn [app map fmt]; [now rewrite app_nil_r|].
  apply Forall_cons_iff in F. destruct F as [N F]. replace (c =? 32) with false by lia. rewrite IH by exact F.
  now rewrite <- app_assoc.
Qed.

(* case analysis on whether a number is the one of a pattern *)
Ltac by_bits x tac :=
  let p := fresh "p" in destruct x as [|p|p]; try tac; do 7 (try (destruct p as [p|p|]; try tac)).

(* no space followed by an ampersand *)
Fixpoint no_amp (l : list Z) : Prop :=
  match l with
  | [] => True
  | c :: t => ~ (c = 32 /\ match t with 38 :: _ => True | _ => False end) /\ no_amp t
  end.

Lemma ns_amp seg : no_amp seg -> no_amp (38 :: seg).
Proof. intros H. split; [intros [C _]; discriminate|exact H]. Qed.

Lemma no_amp_split pre w : no_amp (pre ++ 32 :: w) -> no_amp pre /\ no_amp w /\ match w with 38 :: _ => False | _ => True end.
Proof.
  induction pre as [|c pre IH]; cbn [app no_amp].
  - intros [H1 H2]. split; [exact I|]. split; [exact H2|]. destruct w as [|x w]; [exact I|].
    destruct (Z.eq_dec x 38) as [->|N]; [apply H1; split; [reflexivity|exact I]|].
    by_bits x ltac:(first [exact I | congruence]).
  - intros [H1 H2]. destruct (IH H2) as (A & B & C). split; [|auto]. split; [|exact A].
    intros [-> K]. apply H1. split; [reflexivity|]. destruct pre as [|p pre]; [contradiction|]. cbn [app]. exact K.
Qed.

Lemma no_amp_app x y : no_amp (x ++ y) -> no_amp x.
Proof.
  induction x as [|c x IH]; cbn [app no_amp]; [auto|]. intros [H1 H2]. split; [|auto].
  intros [-> K]. apply H1. split; [reflexivity|]. destruct x as [|p x]; [contradiction|exact K].
Qed.

Lemma segment_split r : exists seg rest, r = seg ++ rest /\ len seg = author_len_tail r /\ no_amp seg /\ (rest = [] \/ exists t, rest = 32 :: t).
Proof.
  induction r as [|c r (seg & rest & E & L & N & R)].
  - exists [], []. repeat split; auto.
  - destruct (Z.eq_dec c 32) as [->|C].
    + destruct r as [|x r].
      * exists [32], []. cbn. repeat split; auto. intros [_ []].
      * destruct (Z.eq_dec x 38) as [->|X].
        -- exists [], (32 :: 38 :: r). repeat split; auto. right. eauto.
        -- exists (32 :: seg), rest. rewrite len_cons, L, E.
           assert (AL : author_len_tail (32 :: x :: r) = 1 + author_len_tail (x :: r)).
           { clear - X. by_bits x ltac:(first [reflexivity | congruence]). }
           split; [reflexivity|]. split; [rewrite <- E; symmetry; exact AL|]. split; [|exact R]. split; [|exact N].
           intros [_ K]. destruct seg as [|y seg]; [contradiction|]. cbn [app] in E. injection E as -> _.
           by_bits y ltac:(first [contradiction | congruence]).
    + exists (c :: seg), rest. rewrite len_cons, L, E. split; [reflexivity|].
      split; [rewrite <- E; clear - C; by_bits c ltac:(first [reflexivity | congruence])|].
      split; [|exact R]. split; [intros [K _]; congruence|exact N].
Qed.

(* the last word of a text, after its last space if there is one *)
Lemma last_word l : exists (pre : option (list Z)) w,
  l = (match pre with Some p => p ++ 32 :: w | None => w end) /\ Forall (fun c => c <> 32) w /\ True.
Proof.
  induction l as [|c l (pre & w & E & F & _)].
  - exists None, []. auto.
  - destruct pre as [p|].
    + exists (Some (c :: p)), w. subst l. auto.
    + destruct (Z.eq_dec c 32) as [->|N].
      * exists (Some []), w. subst l. auto.
      * exists None, (c :: w). subst l. auto.
Qed.

(* a text without a space and an ampersand that fits the line is copied as it is *)
Lemma fmt_segment a seg : forall dest rest, no_amp seg -> (rest = [] \/ exists t, rest = 32 :: t) ->
  Z.rem (len dest) 32 + len seg <= 32 -> fmt dest (seg ++ rest) a = fmt (dest ++ map u8 seg) rest a.
Proof.
  induction seg as [|c seg IH]; intros dest rest N R C; cbn [app map]; [now rewrite app_nil_r|].
  rewrite len_cons in C. rewrite rem_mod in C. destruct N as [N1 N2]. pose proof (len_nonneg seg) as S0.
  assert (NEXT : forall x, fmt (dest ++ [x]) (seg ++ rest) a = fmt (dest ++ x :: map u8 seg) rest a).
  { intros x. destruct (Z_lt_ge_dec (len dest mod 32) 31) as [K|K].
    - rewrite IH; [now rewrite <- app_assoc|exact N2|exact R|]. rewrite rem_mod, len_snoc. lia.
    - assert (len seg = 0) as Z0 by lia. apply len_0_nil in Z0. subst seg. reflexivity. }
  cbn [fmt]. destruct (Z.eqb_spec c 32) as [->|NC]; [|apply NEXT].
  assert (WL : word_len (seg ++ rest) <= len seg).
  { destruct (word_split (seg ++ rest)) as (w & t & E & LW & FW & RT). rewrite <- LW.
    clear - E FW R. revert w E FW. induction seg as [|x seg IH]; intros w E FW; cbn [app] in E.
    - destruct w as [|y w]; [lia|]. destruct R as [-> | (q & ->)]; [discriminate|]. cbn [app] in E. injection E as E _. subst y.
      apply Forall_cons_iff in FW. now destruct FW.
    - destruct w as [|y w]; [pose proof (len_nonneg (x :: seg)); change (len (@nil Z)) with 0; lia|].
      cbn [app] in E. injection E as _ E. apply Forall_cons_iff in FW. rewrite !len_cons. specialize (IH w E (proj2 FW)). lia. }
  replace (author_break dest (seg ++ rest) a) with false.
  2: { symmetry. unfold author_break. destruct seg as [|x seg].
       - cbn [app]. destruct R as [-> | (t & ->)]; now rewrite andb_false_r.
       - cbn [app]. destruct (Z.eq_dec x 38) as [->|X]; [exfalso; apply N1; split; [reflexivity|exact I]|].
         replace (match x with 38 => true | _ => false end) with false; [now rewrite andb_false_r|].
         by_bits x ltac:(first [reflexivity | congruence]). }
  replace (word_break dest (seg ++ rest)) with false by (symmetry; unfold word_break; rewrite rem_mod; lia).
  apply (NEXT 32).
Qed.

Lemma len_map {A B} (f : A -> B) l : len (map f l) = len l.
Proof. unfold len. now rewrite map_length. Qed.

(* ---- bounding the length with a table of the least number of characters that reach each length ---- *)
Section TABLE.
Variables (T : list Z) (lim maxn : Z) (a : bool).

Definition tab (L : Z) : Z := nth (Z.to_nat L) T 0.
Definition move_ok (L M w : Z) : bool := if M <=? lim then tab M <=? tab L + w else maxn <? tab L + w.
Definition up0 (L : Z) : Z := L + (0 - L) mod 32.
Definition up1 (L : Z) : Z := L + (1 - L) mod 32.
Definition moves_ok (L : Z) : bool :=
  move_ok L (L + 1) 1
  && forallb (fun wl => negb (32 <? L mod 32 + 1 + wl) || move_ok L (up0 L + wl) (1 + wl)) (zrange 33)
  && (negb a ||
      (forallb (fun al => negb (32 <? L mod 32 + 1 + al) || move_ok L (up1 L + al) (1 + al)) (zrange 33)
       && forallb (fun wl => move_ok L (up1 L + 31 + wl) 33) (zrange 31))).

Hypothesis OK : forallb moves_ok (zrange (Z.to_nat (lim + 1))) = true.
Hypothesis lim0 : 0 <= lim.

Lemma use_moves L : 0 <= L <= lim ->
  move_ok L (L + 1) 1 = true
  /\ (forall wl, 0 <= wl <= 32 -> 32 < L mod 32 + 1 + wl -> move_ok L (up0 L + wl) (1 + wl) = true)
  /\ (a = true -> forall al, 0 <= al <= 32 -> 32 < L mod 32 + 1 + al -> move_ok L (up1 L + al) (1 + al) = true)
  /\ (a = true -> forall wl, 0 <= wl <= 30 -> move_ok L (up1 L + 31 + wl) 33 = true).
Proof.
  intros HL. pose proof (forallb_zrange _ _ OK L ltac:(lia)) as H. unfold moves_ok in H.
  apply andb_true_iff in H. destruct H as [H H3]. apply andb_true_iff in H. destruct H as [H1 H2].
  split; [exact H1|]. split.
  { intros wl Hw Hc. pose proof (forallb_zrange _ _ H2 wl ltac:(lia)) as K. cbn beta in K. replace (32 <? L mod 32 + 1 + wl) with true in K by lia. exact K. }
  split; intros Ha; rewrite Ha in H3; cbn [negb orb] in H3; apply andb_true_iff in H3; destruct H3 as [H3 H4].
  - intros al Hw Hc. pose proof (forallb_zrange _ _ H3 al ltac:(lia)) as K. cbn beta in K. replace (32 <? L mod 32 + 1 + al) with true in K by lia. exact K.
  - intros wl Hw. exact (forallb_zrange _ _ H4 wl ltac:(lia)).
Qed.

Lemma move_use L M w n : move_ok L M w = true -> tab L + n <= maxn -> w <= n -> M <= lim /\ tab M + (n - w) <= maxn.
Proof. unfold move_ok. intros H Hn Hw. destruct (Z.leb_spec M lim) as [C|C]; lia. Qed.

Lemma fmt_bound_n n : forall src dest, (length src < n)%nat -> len dest <= lim -> tab (len dest) + len src <= maxn -> len (fmt dest src a) <= lim.
Proof.
  induction n as [|n IH]; intros src dest Hn Hd Ht; [lia|].
  pose proof (len_nonneg dest) as L0. destruct (use_moves (len dest) ltac:(lia)) as (M1 & M2 & M3 & M4).
  destruct src as [|c r]; [cbn [fmt]; exact Hd|]. cbn [length] in Hn. rewrite len_cons in Ht. pose proof (len_nonneg r) as R0.
  assert (PUSH : forall x, len (fmt (dest ++ [x]) r a) <= lim).
  { intros x. destruct (move_use _ _ _ _ M1 Ht ltac:(lia)) as [A B]. apply IH; rewrite ?len_snoc; lia. }
  cbn [fmt]. destruct (Z.eqb_spec c 32) as [->|N]; [|apply PUSH].
  destruct (author_break dest r a) eqn:AB.
  - unfold author_break in AB. apply andb_true_iff in AB. destruct AB as [AB A4]. apply andb_true_iff in AB. destruct AB as [AB A3].
    apply andb_true_iff in AB. destruct AB as [Ea A2]. specialize (M3 Ea). specialize (M4 Ea). rewrite rem_mod in A4.
    destruct r as [|c r]; [discriminate|]. assert (c = 38) as -> by (destruct (Z.eq_dec c 38); [assumption|exfalso; by_bits c ltac:(first [discriminate A2 | congruence])]).
    destruct (segment_split r) as (seg & rest & E & LS & NS & RS). cbn [author_len] in A3, A4, M3. rewrite <- LS in A3, A4.
    assert (LR : len (38 :: r) = 1 + len seg + len rest) by (subst r; rewrite len_cons, len_app; lia).
    pose proof (len_nonneg rest) as Q0. pose proof (len_nonneg seg) as S0.
    assert (C1 : len (padp dest 1) mod 32 = 1) by (rewrite len_padp; lia).
    assert (UP : len (padp dest 1) = up1 (len dest)) by (rewrite len_padp; reflexivity).
    destruct (Z_le_gt_dec (len seg) 30) as [SH|LO].
    + rewrite E. change (38 :: seg ++ rest) with ((38 :: seg) ++ rest).
      rewrite fmt_segment; [|apply ns_amp; exact NS|exact RS|rewrite rem_mod, C1, len_cons; lia].
      specialize (M3 (1 + len seg) ltac:(lia) ltac:(lia)).
      destruct (move_use _ _ _ _ M3 Ht ltac:(lia)) as [A B].
      apply IH; [subst r; cbn [length] in Hn; rewrite app_length in Hn; lia| |]; rewrite len_app, len_map, len_cons, UP; [lia|].
      replace (up1 (len dest) + (1 + len seg)) with (up1 (len dest) + (1 + len seg)) by lia.
      replace (len rest) with (1 + len (38 :: r) - (1 + (1 + len seg))) by lia. exact B.
    + assert (LS31 : len seg = 31) by lia.
      destruct (last_word (38 :: seg)) as (pre & w & EW & FW & HP).
      destruct pre as [pre|].
      * (* a last word that goes to the next line, or a trailing space *)
        assert (LP : len pre + 1 + len w = 32) by (apply (f_equal len) in EW; rewrite len_cons, len_app, len_cons in EW; lia).
        pose proof (len_nonneg w) as W0.
        assert (LP1 : 1 <= len pre).
        { destruct pre as [|p pre]; [cbn [app] in EW; congruence|]. rewrite len_cons. pose proof (len_nonneg pre). lia. }
        rewrite E. change (38 :: seg ++ rest) with ((38 :: seg) ++ rest). rewrite EW, <- app_assoc. cbn [app].
        assert (NP : no_amp pre /\ no_amp w /\ match w with 38 :: _ => False | _ => True end).
        { apply ns_amp in NS. rewrite EW in NS. apply no_amp_split. exact NS. }
        destruct NP as (NP & NW & N38).
        rewrite fmt_segment; [|exact NP|right; eauto|rewrite rem_mod, C1; lia].
        cbn [fmt]. rewrite Z.eqb_refl.
        set (d1 := padp dest 1 ++ map u8 pre).
        assert (LD1 : len d1 = up1 (len dest) + len pre) by (unfold d1; rewrite len_app, len_map, UP; reflexivity).
        replace (author_break d1 (w ++ rest) a) with false.
        2: { symmetry. unfold author_break. destruct w as [|x w].
             - cbn [app]. destruct RS as [-> | (t & ->)]; now rewrite andb_false_r.
             - cbn [app]. destruct (Z.eq_dec x 38) as [->|X]; [contradiction|].
               replace (match x with 38 => true | _ => false end) with false; [now rewrite andb_false_r|].
               by_bits x ltac:(first [reflexivity | congruence]). }
        assert (WL : word_len (w ++ rest) = len w).
        { rewrite word_len_app by exact FW. destruct RS as [-> | (t & ->)]; cbn [word_len]; rewrite ?Z.eqb_refl; lia. }
        assert (CD : len d1 mod 32 = (1 + len pre) mod 32) by (rewrite LD1, <- UP; lia).
        destruct w as [|x w'] eqn:Ew.
        -- replace (word_break d1 ([] ++ rest)) with false by (symmetry; unfold word_break; rewrite WL, rem_mod; cbn [len length Z.of_nat] in *; rewrite CD; change (len (@nil Z)) with 0 in *; lia).
           cbn [app]. change (len (@nil Z)) with 0 in *. specialize (M3 32 ltac:(lia) ltac:(lia)).
           destruct (move_use _ _ _ _ M3 Ht ltac:(lia)) as [A B].
           apply IH; [subst r; cbn [length] in Hn; rewrite app_length in Hn; lia| |]; rewrite len_snoc, LD1; [lia|].
           replace (up1 (len dest) + len pre + 1) with (up1 (len dest) + 32) by lia.
           replace (len rest) with (1 + len (38 :: r) - (1 + 32)) by lia. exact B.
        -- rewrite <- Ew in *. assert (W1 : 1 <= len w) by (rewrite Ew, len_cons; pose proof (len_nonneg w'); lia).
           replace (word_break d1 (w ++ rest)) with true by (symmetry; unfold word_break; rewrite WL, rem_mod, CD; lia).
           rewrite fmt_word by exact FW. specialize (M4 (len w) ltac:(lia)).
           destruct (move_use _ _ _ _ M4 Ht ltac:(lia)) as [A B].
           assert (LE : len (padp d1 0) = up1 (len dest) + 31) by (rewrite len_padp, LD1, <- UP; lia).
           apply IH; [subst r; cbn [length] in Hn; rewrite app_length in Hn; lia| |]; rewrite len_app, len_map, LE; [lia|].
           replace (len rest) with (1 + len (38 :: r) - 33) by lia. exact B.
      * (* one word *)
        rewrite E. change (38 :: seg ++ rest) with ((38 :: seg) ++ rest). rewrite fmt_word by (rewrite EW; exact FW).
        specialize (M3 32 ltac:(lia) ltac:(lia)). destruct (move_use _ _ _ _ M3 Ht ltac:(lia)) as [A B].
        apply IH; [subst r; cbn [length] in Hn; rewrite app_length in Hn; lia| |]; rewrite len_app, len_map, len_cons, UP, LS31; [lia|].
        replace (len rest) with (1 + len (38 :: r) - (1 + 32)) by lia. exact B.
  - destruct (word_break dest r) eqn:WB; [|apply PUSH].
    unfold word_break in WB. rewrite rem_mod in WB. apply andb_true_iff in WB. destruct WB as [W1 W2].
    destruct (word_split r) as (w & rest & E & LW & FW & RS). rewrite <- LW in *. pose proof (len_nonneg w) as W0.
    rewrite E, fmt_word by exact FW. specialize (M2 (len w) ltac:(lia) ltac:(lia)).
    assert (LR : len r = len w + len rest) by (subst r; apply len_app). pose proof (len_nonneg rest) as Q0.
    destruct (move_use _ _ _ _ M2 Ht ltac:(lia)) as [A B].
    assert (UP : len (padp dest 0) = up0 (len dest)) by (rewrite len_padp; reflexivity).
    apply IH; [subst r; rewrite app_length in Hn; lia| |]; rewrite len_app, len_map, UP; [lia|].
    replace (len rest) with (1 + len r - (1 + len w)) by lia. exact B.
Qed.

Lemma fmt_bound src dest : len dest <= lim -> tab (len dest) + len src <= maxn -> len (fmt dest src a) <= lim.
Proof. apply (fmt_bound_n (S (length src))). lia. Qed.
End TABLE.

Definition title_table : list Z :=
  [0; 1; 2; 3; 4; 5; 6; 7; 8; 9; 10; 11; 12; 13; 14; 15; 16; 17; 18; 19; 20; 21; 22; 23; 24; 25; 26; 27; 28; 29; 30; 31; 32; 33; 33; 33; 33; 33; 33; 33; 33; 33; 33; 33; 33; 33; 33; 33; 33; 33; 33; 33; 33; 33; 33; 33; 33; 33; 33; 33; 33; 33; 33; 33; 34; 35; 36; 37; 38; 39; 40; 41; 42; 43; 44; 45; 46; 47; 48; 49; 50; 51; 52; 53; 54; 55; 56; 57; 58; 59; 60; 61; 62; 63; 64; 65; 66; 67; 67; 67; 67; 67; 67; 67; 67; 67; 67; 67; 67; 67; 67; 67; 67; 67; 67; 67; 67; 67; 67; 67; 67; 67; 67; 67; 67; 67; 67; 67; 68; 69; 70; 71; 72; 73; 74; 75; 76; 77; 78; 79; 80; 81; 82; 83; 84; 85; 86; 87; 88; 89; 90; 91; 92; 93; 94; 95; 96; 97; 98; 99; 100; 101; 101; 101; 101; 101; 101; 101; 101; 101; 101; 101; 101; 101; 101; 101; 101; 101; 101; 101; 101; 101; 101; 101; 101; 101; 101; 101; 101; 101; 101; 101; 102; 103; 104; 105; 106; 107; 108; 109; 110; 111; 112; 113; 114; 115; 116; 117; 118; 119; 120; 121; 122; 123; 124; 125; 126; 127; 128; 129; 130; 131; 132; 133; 134].
Definition author_table : list Z :=
  [999; 999; 999; 0; 1; 2; 3; 4; 5; 6; 7; 8; 9; 10; 11; 12; 13; 14; 15; 16; 17; 18; 19; 20; 21; 22; 23; 24; 25; 26; 27; 28; 29; 30; 30; 30; 30; 30; 30; 30; 30; 30; 30; 30; 30; 30; 30; 30; 30; 30; 30; 30; 30; 30; 30; 30; 30; 30; 30; 30; 30; 30; 31; 32; 33; 34; 34; 34; 35; 36; 37; 38; 39; 40; 41; 42; 43; 44; 45; 46; 47; 48; 49; 50; 51; 52; 53; 54; 55; 56; 57; 58; 59; 60; 61; 62; 63; 64; 64; 64; 64; 64; 64; 64; 64; 64; 64; 64; 64; 64; 64; 64; 64; 64; 64; 64; 64; 64; 64; 64; 64; 64; 64; 64; 64; 64; 65; 66; 67; 68; 68; 68; 69; 70; 71; 72; 73; 74; 75; 76; 77; 78; 79; 80; 81; 82; 83; 84; 85; 86; 87; 88; 89; 90; 91; 92; 93; 94; 95; 96; 97; 98; 98; 98; 98; 98; 98; 98; 98; 98; 98; 98; 98; 98; 98; 98; 98; 98; 98; 98; 98; 98; 98; 98; 98; 98; 98; 98; 98; 98; 99; 100; 101; 102; 102; 102; 103; 104; 105; 106; 107; 108; 109; 110; 111; 112; 113; 114; 115; 116; 117; 118; 119; 120; 121; 122; 123; 124; 125; 126; 127; 128; 129; 130; 131; 132; 132; 132; 132; 132; 132; 132; 132; 132; 132; 132; 132; 132; 132; 132; 132; 132; 132; 132; 132; 132; 132; 132; 132; 132; 132; 132; 132; 132; 133; 134; 135].
Definition authors_table : list Z :=
  [999; 999; 999; 0; 1; 2; 3; 4; 5; 6; 7; 8; 9; 10; 11; 12; 13; 14; 15; 16; 17; 18; 19; 20; 21; 22; 23; 24; 25; 26; 27; 28; 29; 30; 30; 30; 30; 30; 30; 30; 30; 30; 30; 30; 30; 30; 30; 30; 30; 30; 30; 30; 30; 30; 30; 30; 30; 30; 30; 30; 30; 30; 30; 31; 32; 33; 33; 33; 33; 33; 33; 33; 33; 33; 33; 33; 33; 33; 33; 33; 33; 33; 33; 33; 33; 33; 33; 33; 33; 33; 33; 33; 33; 33; 33; 34; 35; 36; 36; 36; 37; 38; 39; 40; 41; 42; 43; 44; 45; 46; 47; 48; 49; 50; 51; 52; 53; 54; 55; 56; 57; 58; 59; 60; 61; 62; 63; 64; 65; 66; 66; 66; 66; 66; 66; 66; 66; 66; 66; 66; 66; 66; 66; 66; 66; 66; 66; 66; 66; 66; 66; 66; 66; 66; 66; 66; 66; 66; 66; 67; 68; 69; 69; 69; 69; 69; 69; 69; 69; 69; 69; 69; 69; 69; 69; 69; 69; 69; 69; 69; 69; 69; 69; 69; 69; 69; 69; 69; 69; 69; 69; 70; 71; 72; 72; 72; 73; 74; 75; 76; 77; 78; 79; 80; 81; 82; 83; 84; 85; 86; 87; 88; 89; 90; 91; 92; 93; 94; 95; 96; 97; 98; 99; 100; 101; 102; 102; 102; 102; 102; 102; 102; 102; 102; 102; 102; 102; 102; 102; 102; 102; 102; 102; 102; 102; 102; 102; 102; 102; 102; 102; 102; 102; 102; 102; 103; 104].
