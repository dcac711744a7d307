(* The title screen: what the three buffers hold. *)
From Coq Require Import String.
From Verif Require Import Base BaseFacts InfoModel InfoSpec InfoProofs Resources WriterModel SapSpec XexSpec XexProofs.

(* ---- bounds ---- *)
Lemma title_moves : forallb (moves_ok title_table 224 134 false) (zrange 225) = true. Proof. vm_compute. reflexivity. Qed.
Lemma author_moves : forallb (moves_ok author_table 256 135 false) (zrange 257) = true. Proof. vm_compute. reflexivity. Qed.
Lemma authors_moves : forallb (moves_ok authors_table 256 104 true) (zrange 257) = true. Proof. vm_compute. reflexivity. Qed.

Lemma fmt_title_len t : len t <= 127 -> len (fmt [] t false) <= 224.
Proof. intros H. apply (fmt_bound title_table 224 134 false title_moves); [lia|vm_compute; discriminate|replace (tab title_table (len (@nil Z))) with 0 by reflexivity; lia]. Qed.

Lemma fmt_author_len t : len t <= 127 -> len (fmt (str "by ") t false) <= 256.
Proof. intros H. apply (fmt_bound author_table 256 135 false author_moves); [lia|vm_compute; discriminate|replace (tab author_table (len (str "by "))) with 0 by reflexivity; lia]. Qed.

Lemma fmt_authors_len t : len t <= 104 -> len (fmt (str "by ") t true) <= 256.
Proof. intros H. apply (fmt_bound authors_table 256 104 true authors_moves); [lia|vm_compute; discriminate|replace (tab authors_table (len (str "by "))) with 0 by reflexivity; lia]. Qed.

Lemma padp_mod d e : 0 <= e < 32 -> len (padp d e) mod 32 = e.
Proof. intros H. rewrite len_padp. lia. Qed.

(* rounding up to whole lines stays in a buffer of whole lines *)
Lemma padp_le d lim : len d <= lim -> lim mod 32 = 0 -> len (padp d 0) <= lim.
Proof. intros H L. rewrite len_padp. lia. Qed.

Lemma fmt_no_amp src : forall dest, no_amp src -> fmt dest src true = fmt dest src false.
Proof.
  induction src as [|c r IH]; intros dest N; cbn [fmt]; [reflexivity|]. destruct N as [N1 N2]. rewrite !IH by exact N2.
  destruct (Z.eqb_spec c 32) as [->|C]; [|reflexivity].
  replace (author_break dest r true) with false; [reflexivity|]. unfold author_break.
  destruct r as [|x r]; [reflexivity|]. destruct (Z.eq_dec x 38) as [->|X]; [exfalso; apply N1; split; [reflexivity|exact I]|].
  replace (match x with 38 => true | _ => false end) with false; [reflexivity|]. by_bits x ltac:(first [reflexivity | congruence]).
Qed.

Lemma no_amp_one t : ~ several_authors t -> no_amp t.
Proof.
  induction t as [|c t IH]; intros N; [exact I|]. split.
  - intros [-> K]. destruct t as [|x t]; [contradiction|]. destruct (Z.eq_dec x 38) as [->|X].
    + apply N. exists [], t. reflexivity.
    + by_bits x ltac:(first [contradiction | congruence]).
  - apply IH. intros (p & q & ->). apply N. exists (c :: p), q. reflexivity.
Qed.

(* ---- nothing lost ---- *)
Lemma visible_app x y : visible (x ++ y) = visible x ++ visible y.
Proof. apply filter_app. Qed.

Lemma visible_repeat n : visible (repeat 32 n) = [].
Proof. induction n as [|n IH]; [reflexivity|exact IH]. Qed.

Lemma visible_padp d e : visible (padp d e) = visible d.
Proof. unfold padp. rewrite visible_app, visible_repeat. apply app_nil_r. Qed.

Lemma visible_fmt src a : forall dest, bytes src -> visible (fmt dest src a) = visible dest ++ visible src.
Proof.
  induction src as [|c r IH]; intros dest B; cbn [fmt]; [cbn; now rewrite app_nil_r|].
  apply Forall_cons_iff in B. destruct B as [B0 B]. specialize (fun d => IH d B).
  change (c :: r) with ([c] ++ r). rewrite visible_app. destruct (Z.eqb_spec c 32) as [->|C].
  - change (visible [32]) with (@nil Z). cbn [app].
    destruct (author_break dest r a); [|destruct (word_break dest r)]; rewrite IH, ?visible_padp; [reflexivity|reflexivity|].
    rewrite visible_app. change (visible [32]) with (@nil Z). now rewrite app_nil_r.
  - rewrite IH, visible_app, <- app_assoc. unfold u8. rewrite Z.mod_small by (unfold byte in B0; lia). reflexivity.
Qed.

(* ---- positions ---- *)
Definition wb (L : Z) (r : list Z) : bool := (word_len r <=? 32) && (32 <? L mod 32 + 1 + word_len r).
Definition nxt (L c : Z) (r : list Z) : Z := if (c =? 32) && wb L r then L + (0 - L) mod 32 else L + 1.
Fixpoint posl (L : Z) (src : list Z) : list Z :=
  match src with
  | [] => []
  | c :: r => L :: posl (nxt L c r) r
  end.

Lemma nxt_ge L c r : L <= nxt L c r.
Proof. unfold nxt. destruct ((c =? 32) && wb L r); lia. Qed.

Lemma nxt_char L c r : c <> 32 -> nxt L c r = L + 1.
Proof. intros H. unfold nxt. now replace (c =? 32) with false by lia. Qed.

Lemma len_posl src : forall L, len (posl L src) = len src.
Proof. induction src as [|c r IH]; intros L; cbn [posl]; [reflexivity|]. now rewrite !len_cons, IH. Qed.

Lemma posl_0 L c r : at_ (posl L (c :: r)) 0 = L.
Proof. reflexivity. Qed.

Lemma posl_S L c r i : 0 < i -> at_ (posl L (c :: r)) i = at_ (posl (nxt L c r) r) (i - 1).
Proof. intros H. cbn [posl]. now rewrite at_cons_S by exact H. Qed.

Lemma posl_next src : forall L k, 0 <= k -> k + 1 < len src ->
  at_ (posl L src) (k + 1) = nxt (at_ (posl L src) k) (at_ src k) (skipn (Z.to_nat (k + 1)) src).
Proof.
  induction src as [|c r IH]; intros L k H0 H; [change (len (@nil Z)) with 0 in H; lia|]. rewrite len_cons in H.
  rewrite posl_S by lia. replace (k + 1 - 1) with k by lia. destruct (Z.eq_dec k 0) as [->|K].
  - destruct r as [|x r]; [change (len (@nil Z)) with 0 in H; lia|]. reflexivity.
  - rewrite posl_S, at_cons_S by lia.
    replace (Z.to_nat (k + 1)) with (S (Z.to_nat k)) by lia. cbn [skipn].
    specialize (IH (nxt L c r) (k - 1) ltac:(lia) ltac:(lia)). replace (k - 1 + 1) with k in IH by lia. exact IH.
Qed.

Lemma posl_step_le src L k : 0 <= k -> k + 1 < len src -> at_ (posl L src) k <= at_ (posl L src) (k + 1).
Proof. intros H0 H. rewrite (posl_next src L k H0 H). apply nxt_ge. Qed.

Lemma posl_le src L n : forall i, 0 <= i -> i + Z.of_nat n < len src -> at_ (posl L src) i <= at_ (posl L src) (i + Z.of_nat n).
Proof.
  induction n as [|n IH]; intros i H0 H; [replace (i + Z.of_nat 0) with i by lia; lia|].
  specialize (IH i H0 ltac:(lia)). pose proof (posl_step_le src L (i + Z.of_nat n) ltac:(lia) ltac:(lia)) as S.
  replace (i + Z.of_nat (Datatypes.S n)) with (i + Z.of_nat n + 1) by lia. lia.
Qed.

Lemma posl_mono src L i j : 0 <= i <= j -> j < len src -> at_ (posl L src) i <= at_ (posl L src) j.
Proof. intros H Hj. pose proof (posl_le src L (Z.to_nat (j - i)) i ltac:(lia) ltac:(lia)) as P. replace (i + Z.of_nat (Z.to_nat (j - i))) with j in P by lia. exact P. Qed.

Lemma posl_after src L i j : 0 <= i < j -> j < len src -> at_ src i <> 32 -> at_ (posl L src) i + 1 <= at_ (posl L src) j.
Proof.
  intros H Hj C. pose proof (posl_mono src L (i + 1) j ltac:(lia) Hj) as M.
  rewrite (posl_next src L i ltac:(lia) ltac:(lia)), nxt_char in M by exact C. exact M.
Qed.

(* consecutive characters of a word are next to each other *)
Lemma posl_word src L n : forall i, 0 <= i -> i + Z.of_nat n < len src -> (forall k, i <= k < i + Z.of_nat n -> at_ src k <> 32) ->
  at_ (posl L src) (i + Z.of_nat n) = at_ (posl L src) i + Z.of_nat n.
Proof.
  induction n as [|n IH]; intros i H0 H C; [replace (i + Z.of_nat 0) with i by lia; lia|].
  specialize (IH i H0 ltac:(lia) ltac:(intros k Hk; apply C; lia)).
  replace (i + Z.of_nat (S n)) with (i + Z.of_nat n + 1) by lia.
  rewrite (posl_next src L (i + Z.of_nat n)), nxt_char by (try lia; apply C; lia). lia.
Qed.

Lemma word_len_at src a b : 0 <= a <= b -> b <= len src -> b = len src \/ at_ src b = 32 -> (forall i, a <= i < b -> at_ src i <> 32) ->
  word_len (skipn (Z.to_nat a) src) = b - a.
Proof.
  intros H Hb E. replace b with (a + Z.of_nat (Z.to_nat (b - a))) in * by lia.
  remember (Z.to_nat (b - a)) as n eqn:En. clear En. destruct H as [H0 _]. revert a H0 Hb E.
  induction n as [|n IH]; intros a H0 Hb E C.
  - replace (a + Z.of_nat 0) with a in * by lia. destruct E as [->|E].
    + unfold len. rewrite Nat2Z.id, skipn_all. cbn [word_len]. lia.
    + destruct (Z.eq_dec a (len src)) as [->|N]; [unfold len; rewrite Nat2Z.id, skipn_all; cbn [word_len]; lia|].
      rewrite skipn_at by lia. cbn [word_len]. rewrite E, Z.eqb_refl. lia.
  - rewrite skipn_at by lia. cbn [word_len]. replace (at_ src a =? 32) with false by (symmetry; apply Z.eqb_neq, C; lia).
    rewrite (IH (a + 1)); [lia|lia|lia| |].
    + replace (a + 1 + Z.of_nat n) with (a + Z.of_nat (S n)) by lia. exact E.
    + intros i Hi. apply C. lia.
Qed.

(* the formatter puts the characters there *)
Lemma fmt_step dest c r : exists x, fmt dest (c :: r) false = fmt (dest ++ x) r false
  /\ len (dest ++ x) = nxt (len dest) c r /\ ((c = 32 /\ visible x = []) \/ (c <> 32 /\ x = [u8 c])).
Proof.
  cbn [fmt]. unfold nxt, wb, word_break. rewrite rem_mod. destruct (Z.eqb_spec c 32) as [->|C]; cbn [andb].
  - change (author_break dest r false) with false.
    destruct ((word_len r <=? 32) && (32 <? len dest mod 32 + 1 + word_len r)).
    + exists (repeat 32 (Z.to_nat ((0 - len dest) mod 32))). split; [reflexivity|]. split; [apply len_padp|]. left. split; [reflexivity|apply visible_repeat].
    + exists [32]. rewrite len_snoc. auto.
  - exists [u8 c]. rewrite len_snoc. auto.
Qed.

Lemma blank_at x : visible x = [] -> forall i, 0 <= i < len x -> at_ x i = 32.
Proof.
  induction x as [|c x IH]; intros V i H; [change (len (@nil Z)) with 0 in H; lia|]. rewrite len_cons in H. cbn [visible filter] in V.
  destruct (Z.eqb_spec c 32) as [->|C]; cbn [negb] in V; [|discriminate]. destruct (Z.eq_dec i 0) as [->|N]; [apply at_cons_0|].
  rewrite at_cons_S by lia. apply IH; [exact V|lia].
Qed.

Lemma fmt_at src : forall dest, bytes src ->
  (forall p, 0 <= p < len dest -> at_ (fmt dest src false) p = at_ dest p)
  /\ (forall i, 0 <= i < len src -> at_ src i <> 32 ->
       len dest <= at_ (posl (len dest) src) i < len (fmt dest src false) /\ at_ (fmt dest src false) (at_ (posl (len dest) src) i) = at_ src i)
  /\ (forall p, len dest <= p < len (fmt dest src false) -> at_ (fmt dest src false) p <> 32 ->
       exists i, 0 <= i < len src /\ at_ src i <> 32 /\ at_ (posl (len dest) src) i = p).
Proof.
  induction src as [|c r IH]; intros dest B.
  { cbn [fmt]. split; [auto|]. split; intros x H; [change (len (@nil Z)) with 0 in H|]; lia. }
  apply Forall_cons_iff in B. destruct B as [B0 B]. destruct (fmt_step dest c r) as (x & E & LX & X). rewrite E.
  destruct (IH (dest ++ x) B) as (I1 & I2 & I3). rewrite LX in I1, I2, I3.
  pose proof (nxt_ge (len dest) c r) as G. pose proof (len_nonneg dest) as D0. pose proof (fmt_grows (dest ++ x) r false) as FG. rewrite LX in FG.
  rewrite len_app in LX. rewrite len_cons. pose proof (len_nonneg r) as R0.
  split; [|split].
  - intros p Hp. rewrite I1 by lia. apply at_app1. exact Hp.
  - intros i Hi C. destruct (Z.eq_dec i 0) as [->|N].
    + rewrite posl_0. rewrite at_cons_0 in *. destruct X as [[-> _]|[_ ->]]; [congruence|]. change (len [u8 c]) with 1 in LX.
      split; [lia|]. rewrite I1 by lia. rewrite at_app2 by lia. rewrite Z.sub_diag, at_cons_0. unfold u8. rewrite Z.mod_small; [reflexivity|exact B0].
    + rewrite posl_S, at_cons_S in * by lia. destruct (I2 (i - 1) ltac:(lia) C) as [J1 J2]. split; [lia|exact J2].
  - intros p Hp C. destruct (Z_lt_ge_dec p (nxt (len dest) c r)) as [K|K].
    + rewrite I1 in C by lia. rewrite at_app2 in C by lia. destruct X as [[-> V]|[NC ->]].
      * exfalso. apply C. apply blank_at; [exact V|lia].
      * change (len [u8 c]) with 1 in LX. exists 0. rewrite at_cons_0, posl_0. split; [lia|]. split; [exact NC|lia].
    + destruct (I3 p ltac:(lia) C) as (i & H1 & H2 & H3). exists (i + 1). rewrite posl_S, at_cons_S by lia.
      replace (i + 1 - 1) with i by lia. split; [lia|]. auto.
Qed.

Lemma fmt_laid_out t e : bytes t -> laid_out t (fmt_all [] e t false) (at_ (posl 0 t)).
Proof.
  intros B. destruct (fmt_at t [] B) as (_ & F2 & F3). change (len (@nil Z)) with 0 in F2, F3.
  assert (LP : len (fmt_all [] e t false) >= len (fmt [] t false)) by (unfold fmt_all; rewrite len_padp; lia).
  constructor.
  - intros i Hi C. destruct (F2 i Hi C) as [J1 J2]. split; [lia|]. unfold fmt_all, padp. rewrite at_app1 by lia. exact J2.
  - intros i j H Hj Ci Cj. pose proof (posl_after t 0 i j H Hj Ci). lia.
  - intros p Hp C. unfold fmt_all, padp in *. destruct (Z_lt_ge_dec p (len (fmt [] t false))) as [K|K].
    + rewrite at_app1 in C by lia. apply F3; [lia|exact C].
    + exfalso. apply C. rewrite at_app2 by lia. apply blank_at; [apply visible_repeat|]. rewrite len_app in Hp. lia.
  - intros a b Hab Hb Hs Ha He C.
    assert (W : at_ (posl 0 t) (b - 1) = at_ (posl 0 t) a + (b - 1 - a)).
    { pose proof (posl_word t 0 (Z.to_nat (b - 1 - a)) a ltac:(lia) ltac:(lia) ltac:(intros k Hk; apply C; lia)) as P.
      replace (a + Z.of_nat (Z.to_nat (b - 1 - a))) with (b - 1) in P by lia. rewrite P. lia. }
    split; [exact W|].
    assert (K : at_ (posl 0 t) a mod 32 + (b - a) <= 32).
    { destruct (Z.eq_dec a 0) as [->|Na].
      - destruct t as [|c r]; [change (len (@nil Z)) with 0 in Hb; lia|]. rewrite posl_0. change (0 mod 32) with 0. lia.
      - destruct Ha as [Ha|Ha]; [lia|]. pose proof (posl_next t 0 (a - 1) ltac:(lia) ltac:(lia)) as P. replace (a - 1 + 1) with a in P by lia.
        rewrite P, Ha. unfold nxt, wb. rewrite Z.eqb_refl, (word_len_at t a b) by (try lia; auto). cbn [andb].
        destruct ((b - a <=? 32) && (32 <? at_ (posl 0 t) (a - 1) mod 32 + 1 + (b - a))) eqn:Q; lia. }
    rewrite W. lia.
  - intros i j H Hj Ci Cj Cs.
    assert (i <> j - 1) by congruence.
    pose proof (posl_after t 0 i (j - 1) ltac:(lia) ltac:(lia) Ci) as A. pose proof (posl_next t 0 (j - 1) ltac:(lia) ltac:(lia)) as P.
    replace (j - 1 + 1) with j in P by lia. rewrite P, Cs. unfold nxt. rewrite Z.eqb_refl. cbn [andb].
    destruct (wb _ _); [right|left]; lia.
Qed.

(* ---- the three texts ---- *)
Lemma meta_bytes t : meta_text t -> bytes t.
Proof. intros [_ F]. eapply Forall_impl; [|exact F]. unfold meta_char, byte. intros c H. lia. Qed.

Lemma bounded_ok m d : bounded m d -> len d <= 256 -> m = Ok d.
Proof. unfold bounded. intros H L. now replace (len d <=? 256) with true in H by lia. Qed.

Lemma format_ok dest e src a : len dest <= 256 -> 0 <= e < 32 -> len (fmt_all dest e src a) <= 256 ->
  format_xex_info_text dest e src a = Ok (fmt_all dest e src a).
Proof. intros H1 H2 H3. apply bounded_ok; [|exact H3]. now apply format_bounded. Qed.

Lemma shown_title_eq inf : xex_title inf = format_xex_info_text [] 0 (shown_title inf) false.
Proof. unfold xex_title, shown_title. now destruct (i_title inf). Qed.

Lemma shown_title_meta inf : meta_text (i_title inf) -> meta_text (shown_title inf).
Proof.
  unfold shown_title. destruct (i_title inf); [|auto]. intros _. split; [vm_compute; discriminate|].
  repeat (constructor; [unfold meta_char; lia|]). constructor.
Qed.

Lemma title_screen inf : meta_text (i_title inf) ->
  exists d pos, xex_title inf = Ok d /\ whole_lines d /\ laid_out (shown_title inf) d pos /\ visible d = visible (shown_title inf).
Proof.
  intros M. apply shown_title_meta in M. pose proof (meta_bytes _ M) as B. destruct M as [L _].
  pose proof (fmt_title_len _ L) as F.
  assert (LE : len (fmt_all [] 0 (shown_title inf) false) <= 224) by (apply padp_le; [exact F|reflexivity]).
  exists (fmt_all [] 0 (shown_title inf) false), (at_ (posl 0 (shown_title inf))). split; [|split; [|split]].
  - rewrite shown_title_eq. apply bounded_ok; [|lia]. apply format_bounded; [vm_compute; discriminate|lia].
  - split; [apply padp_mod; lia|lia].
  - apply fmt_laid_out. exact B.
  - unfold fmt_all. rewrite visible_padp, visible_fmt by exact B. reflexivity.
Qed.

Lemma author_screen inf : meta_text (i_author inf) -> ~ several_authors (i_author inf) \/ len (i_author inf) <= 104 ->
  exists d, xex_author inf = Ok d /\ whole_lines d
    /\ visible d = visible (match i_author inf with [] => [] | a => str "by " ++ a end).
Proof.
  intros M S. pose proof (meta_bytes _ M) as B. destruct M as [L _]. unfold xex_author.
  destruct (i_author inf) as [|c r] eqn:E.
  { exists []. split; [reflexivity|]. split; [|reflexivity]. split; [reflexivity|vm_compute; discriminate]. }
  assert (F : len (fmt (str "by ") (c :: r) true) <= 256).
  { destruct S as [S|S].
    - rewrite fmt_no_amp by (apply no_amp_one; exact S). now apply fmt_author_len.
    - now apply fmt_authors_len. }
  assert (LE : len (fmt_all (str "by ") 0 (c :: r) true) <= 256) by (apply padp_le; [exact F|reflexivity]).
  exists (fmt_all (str "by ") 0 (c :: r) true). split; [|split].
  - apply bounded_ok; [|exact LE]. apply format_bounded; [vm_compute; discriminate|lia].
  - split; [apply padp_mod; lia|exact LE].
  - unfold fmt_all. rewrite visible_padp, visible_fmt by exact B. now rewrite <- visible_app.
Qed.

Lemma author_overflow inf : i_author inf = wide_authors -> xex_author inf = UB UbWrite.
Proof. intros H. unfold xex_author. rewrite H. vm_compute. reflexivity. Qed.

Lemma wide_meta : meta_text wide_authors.
Proof. split; [vm_compute; discriminate|]. unfold wide_authors, name30. cbn [repeat app]. repeat (constructor; [unfold meta_char; lia|]). constructor. Qed.

Lemma clock_eq s : 0 <= s < 6000 -> two_digits (Z.quot s 60) ++ [58] ++ two_digits (Z.rem s 60) = clock s.
Proof.
  intros H. unfold two_digits, clock, u8. cbn [app].
  rewrite (Z.rem_mod_nonneg s 60), (Z.quot_div_nonneg s 60) by lia.
  rewrite !Z.rem_mod_nonneg, !Z.quot_div_nonneg by lia.
  f_equal; [lia|]. f_equal; [lia|]. f_equal. f_equal; [lia|]. f_equal. lia.
Qed.

Lemma other_screen inf : meta_text (i_date inf) -> 0 <= i_defsong inf < len (i_durations inf) ->
  at_ (i_durations inf) (i_defsong inf) <= int_max - 999 ->
  exists d pos, laid_out (i_date inf) d pos /\ len d mod 32 = 19 /\ visible d = visible (i_date inf)
    /\ xex_other inf = Ok (d ++ shown_channels (i_channels inf) ++ shown_time (at_ (i_durations inf) (i_defsong inf)))
    /\ whole_lines (d ++ shown_channels (i_channels inf) ++ shown_time (at_ (i_durations inf) (i_defsong inf))).
Proof.
  intros M HS HD. pose proof (meta_bytes _ M) as B. destruct M as [L _]. pose proof (fmt_title_len _ L) as F.
  set (d := fmt_all [] 19 (i_date inf) false). pose proof (len_nonneg (fmt [] (i_date inf) false)) as F0.
  assert (LD : len d <= 243) by (unfold d, fmt_all; rewrite len_padp; lia).
  assert (LD256 : len (fmt_all [] 19 (i_date inf) false) <= 256) by (fold d; lia).
  assert (CD : len d mod 32 = 19) by (apply padp_mod; lia).
  set (dur := at_ (i_durations inf) (i_defsong inf)) in *.
  set (ch := shown_channels (i_channels inf)).
  assert (LC : len ch = 8) by (unfold ch, shown_channels; now destruct (1 <? i_channels inf)).
  assert (LT : len (shown_time dur) = 5) by (unfold shown_time; now destruct (_ && _)).
  exists d, (at_ (posl 0 (i_date inf))). split; [apply fmt_laid_out; exact B|]. split; [exact CD|]. split.
  { unfold d, fmt_all. rewrite visible_padp, visible_fmt by exact B. reflexivity. }
  split.
  2: { split; rewrite !len_app, LC, LT; lia. }
  unfold xex_other.
  rewrite format_ok by (first [exact LD256 | lia | vm_compute; discriminate]). fold d. cbn [bind].
  set (s := if 1 <? i_channels inf then str " STEREO" else str "   MONO").
  assert (E : fmt_all d 27 s false = d ++ ch).
  { unfold fmt_all. rewrite <- (app_nil_r s).
    rewrite fmt_segment; [|unfold s; destruct (1 <? i_channels inf); cbn; intuition discriminate|now left|rewrite rem_mod, CD; unfold s; destruct (1 <? i_channels inf); vm_compute; discriminate].
    cbn [fmt]. unfold padp. rewrite len_app.
    replace (len (map u8 s)) with 7 by (unfold s; destruct (1 <? i_channels inf); reflexivity).
    replace (Z.to_nat ((27 - (len d + 7)) mod 32)) with 1%nat by lia. rewrite <- app_assoc. f_equal.
    unfold s, ch, shown_channels. now destruct (1 <? i_channels inf). }
  rewrite (format_ok d 27 s false) by (rewrite ?E, ?len_app; lia). rewrite E.
  cbn [bind]. unfold api_get_duration. rewrite get_ok by exact HS. cbn [bind]. fold dur.
  assert (PAD : pad_xex_info 32 (d ++ ch) 0 = Ok (d ++ ch ++ repeat 32 5)).
  { assert (Q : padp (d ++ ch) 0 = d ++ ch ++ repeat 32 5).
    { unfold padp. rewrite <- app_assoc, len_app, LC. do 2 f_equal. replace (Z.to_nat ((0 - (len d + 8)) mod 32)) with 5%nat by lia. reflexivity. }
    rewrite <- Q. apply bounded_ok; [apply pad_bounded; rewrite ?len_app; lia|]. rewrite Q, !len_app, LC. change (len (repeat 32 5)) with 5. lia. }
  unfold shown_time. destruct (Z.ltb_spec 0 dur) as [P|P]; cbn [andb]; [|exact PAD].
  unfold chk. replace (is_int (dur + 999)) with true by (unfold is_int, int_min, int_max in *; lia). cbn [bind].
  unfold seconds_to_string. replace (dur + 999 <? 0) with false by lia. cbn [orb].
  destruct (Z.leb_spec 6000000 (dur + 999)) as [Q|Q].
  - replace (dur + 999 <? 6000000) with false by lia. exact PAD.
  - replace (dur + 999 <? 6000000) with true by lia. rewrite len_app, LC. replace (len d + 8 + 5 <=? 256) with true by lia.
    cbv zeta. rewrite (Z.quot_div_nonneg (dur + 999) 1000) by lia. rewrite clock_eq by lia. now rewrite <- app_assoc.
Qed.

Lemma other_overflow inf : meta_text (i_date inf) -> 0 <= i_defsong inf < len (i_durations inf) ->
  int_max - 999 < at_ (i_durations inf) (i_defsong inf) -> xex_other inf = UB UbOverflow.
Proof.
  intros M HS HD. destruct M as [L _]. pose proof (fmt_title_len _ L) as F.
  pose proof (len_nonneg (fmt [] (i_date inf) false)) as F0.
  set (d := fmt_all [] 19 (i_date inf) false).
  assert (LD : len d <= 243) by (unfold d, fmt_all; rewrite len_padp; lia).
  assert (LD256 : len (fmt_all [] 19 (i_date inf) false) <= 256) by (fold d; lia).
  assert (CD : len d mod 32 = 19) by (apply padp_mod; lia).
  unfold xex_other. rewrite format_ok by (first [exact LD256 | lia | vm_compute; discriminate]). fold d. cbn [bind].
  set (s := if 1 <? i_channels inf then str " STEREO" else str "   MONO").
  assert (LS : len s = 7) by (unfold s; now destruct (1 <? i_channels inf)).
  assert (E : fmt_all d 27 s false = padp (d ++ map u8 s) 27).
  { unfold fmt_all. rewrite <- (app_nil_r s) at 1.
    rewrite fmt_segment; [reflexivity|unfold s; destruct (1 <? i_channels inf); cbn; intuition discriminate|now left|rewrite rem_mod; lia]. }
  rewrite (format_ok d 27 s false); [|lia|lia|rewrite E, len_padp, len_app, len_map, LS; lia].
  cbn [bind]. unfold api_get_duration. rewrite get_ok by exact HS. cbn [bind].
  replace (0 <? at_ (i_durations inf) (i_defsong inf)) with true by (unfold int_max in HD; lia).
  unfold chk. replace (is_int _) with false by (unfold is_int, int_min, int_max in *; lia). reflexivity.
Qed.
