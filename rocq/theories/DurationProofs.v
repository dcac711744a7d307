(* Proofs about duration texts: ParseDuration and DurationToString. *)
From Verif Require Import Base BaseFacts InfoModel InfoSpec WriterModel.

Lemma cget_at s p : 0 <= p < len s -> cget s p = Ok (at_ s p).
Proof.
  intros H. unfold cget. rewrite get_ok by (rewrite len_app; cbn; lia). f_equal. now apply at_app1.
Qed.

Lemma parse_digit_eq s p max : 0 <= p ->
  parse_digit s p max =
  if p <? len s then
    if (0 <=? at_ s p - 48) && (at_ s p - 48 <=? max) then Ok (at_ s p - 48, p + 1) else Fail
  else Fail.
Proof.
  intros H. unfold parse_digit.
  destruct (Z.ltb_spec p (len s)), (Z.leb_spec (len s) p); try lia; try reflexivity.
  rewrite cget_at by lia. cbn [bind].
  destruct (Z.ltb_spec (at_ s p - 48) 0), (Z.ltb_spec max (at_ s p - 48)),
    (Z.leb_spec 0 (at_ s p - 48)), (Z.leb_spec (at_ s p - 48) max); cbn [orb andb]; try lia; reflexivity.
Qed.

(* a parser that consumes the list; easier to reason about *)
Definition dig (max c : Z) : bool := (48 <=? c) && (c <=? 48 + max).

Definition whole_list (s : list Z) : outcome (Z * list Z) :=
  match s with
  | [] => Fail
  | a :: s1 =>
    if dig 9 a then
      let '(r, s2) :=
        match s1 with
        | b :: s2 => if dig 9 b then (10 * (a - 48) + (b - 48), s2) else (a - 48, s1)
        | [] => (a - 48, [])
        end in
      match s2 with
      | 58 :: t =>
        match t with
        | c :: d :: u => if dig 5 c && dig 9 d then Ok (60 * r + 10 * (c - 48) + (d - 48), u) else Fail
        | _ => Fail
        end
      | _ => Ok (r, s2)
      end
    else Fail
  end.

Definition frac_list (s : list Z) : outcome Z :=
  match s with
  | [] => Ok 0
  | 46 :: a :: t =>
    if dig 9 a then
      match t with
      | [] => Ok (100 * (a - 48))
      | b :: u =>
        if dig 9 b then
          match u with
          | [] => Ok (100 * (a - 48) + 10 * (b - 48))
          | c :: _ => if dig 9 c then Ok (100 * (a - 48) + 10 * (b - 48) + (c - 48)) else Fail
          end
        else Fail
      end
    else Fail
  | _ => Fail
  end.

Lemma dig_eq max c : (0 <=? c - 48) && (c - 48 <=? max) = dig max c.
Proof. unfold dig. lia. Qed.

Ltac atn :=
  repeat match goal with
  | |- context [at_ (?x :: ?l) ?p] =>
    let v := eval cbv in p in
    match v with
    | Z0 => change (at_ (x :: l) p) with x
    | Zpos _ => let l' := constr:(at_ l (v - 1)) in
                let n := eval cbv in (v - 1) in
                replace (at_ (x :: l) p) with (at_ l n) by reflexivity
    end
  end.

Ltac lens :=
  repeat match goal with
  | |- context [len (_ :: _)] => rewrite len_cons
  | |- context [len (@nil Z)] => rewrite len_nil
  end.

Ltac brk b :=
  let E := fresh "E" in destruct b eqn:E.

Ltac len_pos :=
  repeat match goal with
  | l : list Z |- _ =>
    lazymatch goal with
    | _ : 0 <= len l |- _ => fail
    | _ => pose proof (len_nonneg l)
    end
  end.

Ltac decide_cmp :=
  repeat match goal with
  | |- context [?a <? ?b] =>
    first [ replace (a <? b) with true by (symmetry; apply Z.ltb_lt; lia)
          | replace (a <? b) with false by (symmetry; apply Z.ltb_ge; lia) ]
  | |- context [?a <=? ?b] =>
    first [ replace (a <=? b) with true by (symmetry; apply Z.leb_le; lia)
          | replace (a <=? b) with false by (symmetry; apply Z.leb_gt; lia) ]
  end.

Lemma parse_digit_app l s max :
  parse_digit (l ++ s) (len l) max =
  match s with
  | [] => Fail
  | c :: _ => if dig max c then Ok (c - 48, len l + 1) else Fail
  end.
Proof.
  pose proof (len_nonneg l) as Hl. rewrite parse_digit_eq by lia. rewrite len_app.
  destruct s as [|c s].
  - rewrite len_nil. destruct (Z.ltb_spec (len l) (len l + 0)); [lia|reflexivity].
  - rewrite len_cons. pose proof (len_nonneg s).
    destruct (Z.ltb_spec (len l) (len l + (1 + len s))); [|lia].
    rewrite at_app2 by lia. rewrite Z.sub_diag, at_cons_0, dig_eq. reflexivity.
Qed.

Lemma cget_app l s : cget (l ++ s) (len l) = match s with c :: _ => Ok c | [] => Ok 0 end.
Proof.
  unfold cget. pose proof (len_nonneg l) as Hl. rewrite <- app_assoc. rewrite get_ok.
  2:{ rewrite !len_app. change (len [0]) with 1. pose proof (len_nonneg s). lia. }
  rewrite at_app2 by lia. rewrite Z.sub_diag. destruct s; reflexivity.
Qed.

(* position arithmetic: everything is expressed with an explicit consumed prefix *)
Lemma len_snoc {A} (l : list A) c : len (l ++ [c]) = len l + 1.
Proof. rewrite len_app. reflexivity. Qed.

Lemma snoc_app {A} (l : list A) c s : l ++ c :: s = (l ++ [c]) ++ s.
Proof. now rewrite <- app_assoc. Qed.

Lemma frac_equiv l s res :
  (if len (l ++ s) <=? len l then Ok res
   else
    c <- cget (l ++ s) (len l) ;;
    if negb (c =? 46) then Fail
    else
      '(digit, position) <- parse_digit (l ++ s) (len l + 1) 9 ;;
      let result := res + digit * 100 in
      if len (l ++ s) <=? position then Ok result
      else
        '(digit, position) <- parse_digit (l ++ s) position 9 ;;
        let result := result + digit * 10 in
        if len (l ++ s) <=? position then Ok result
        else
          '(digit, position) <- parse_digit (l ++ s) position 9 ;;
          Ok (result + digit)) =
  (f <- frac_list s ;; Ok (res + f)).
Proof.
  pose proof (len_nonneg l) as Hl.
  destruct s as [|c0 s].
  { rewrite app_nil_r. destruct (Z.leb_spec (len l) (len l)); [|lia]. cbn. f_equal. lia. }
  rewrite len_app, len_cons. pose proof (len_nonneg s).
  destruct (Z.leb_spec (len l + (1 + len s)) (len l)); [lia|].
  rewrite cget_app. cbn [bind].
  destruct (Z.eqb_spec c0 46) as [->|N]; cbn [negb].
  2:{ unfold frac_list. destruct c0 as [|p|p]; try reflexivity.
      do 6 (destruct p as [p|p|]; try reflexivity). congruence. }
  rewrite snoc_app, <- (len_snoc l 46), parse_digit_app.
  destruct s as [|a s]; [reflexivity|]. cbn [frac_list]. destruct (dig 9 a) eqn:Ea; [|reflexivity].
  cbn [bind]. rewrite len_cons. rewrite !len_snoc.
  destruct s as [|b s].
  { rewrite len_nil. destruct (Z.leb_spec (len l + (1 + (1 + 0))) (len l + 1 + 1)); [|lia]. cbn [bind]. f_equal. lia. }
  rewrite len_cons. pose proof (len_nonneg s).
  destruct (Z.leb_spec (len l + (1 + (1 + (1 + len s)))) (len l + 1 + 1)); [lia|].
  replace ((l ++ [46]) ++ a :: b :: s) with (((l ++ [46]) ++ [a]) ++ b :: s) by (now rewrite <- !app_assoc).
  replace (len l + 1 + 1) with (len ((l ++ [46]) ++ [a])) by (now rewrite !len_snoc). rewrite parse_digit_app.
  destruct (dig 9 b) eqn:Eb; [|reflexivity]. cbn [bind].
  destruct s as [|c s].
  { rewrite !len_snoc. rewrite len_nil.
    destruct (Z.leb_spec (len l + (1 + (1 + (1 + 0)))) (len l + 1 + 1 + 1)); [|lia]. cbn [bind]. f_equal. lia. }
  rewrite len_cons. pose proof (len_nonneg s). rewrite !len_snoc.
  destruct (Z.leb_spec (len l + (1 + (1 + (1 + (1 + len s))))) (len l + 1 + 1 + 1)); [lia|].
  replace (((l ++ [46]) ++ [a]) ++ b :: c :: s) with ((((l ++ [46]) ++ [a]) ++ [b]) ++ c :: s) by (now rewrite <- !app_assoc).
  replace (len l + 1 + 1 + 1) with (len (((l ++ [46]) ++ [a]) ++ [b])) by (now rewrite !len_snoc). rewrite parse_digit_app.
  destruct (dig 9 c) eqn:Ec; [|reflexivity]. cbn [bind]. f_equal. lia.
Qed.

(* the ":SS" part, after prefix l giving result r *)
Lemma colon_equiv l s r :
  (colon <- (if len l <? len (l ++ s) then c <- cget (l ++ s) (len l) ;; Ok (c =? 58) else Ok false) ;;
   if colon : bool then
     '(digit, position) <- parse_digit (l ++ s) (len l + 1) 5 ;;
     let result := r * 60 + digit * 10 in
     '(digit, position) <- parse_digit (l ++ s) position 9 ;;
     Ok (result + digit, position)
   else Ok (r, len l)) =
  ('(v, t) <- (match s with
      | 58 :: t =>
        match t with
        | c :: d :: u => if dig 5 c && dig 9 d then Ok (60 * r + 10 * (c - 48) + (d - 48), u) else Fail
        | _ => Fail
        end
      | _ => Ok (r, s)
      end) ;; Ok (v, len (l ++ s) - len t)).
Proof.
  pose proof (len_nonneg l) as Hl. rewrite len_app.
  destruct s as [|c0 s].
  { rewrite len_nil. destruct (Z.ltb_spec (len l) (len l + 0)); [lia|]. cbn. do 2 f_equal. lia. }
  rewrite len_cons. pose proof (len_nonneg s).
  destruct (Z.ltb_spec (len l) (len l + (1 + len s))); [|lia].
  rewrite cget_app. cbn [bind].
  destruct (Z.eqb_spec c0 58) as [->|N].
  2:{ assert (forall X (e f : X), match c0 with 58 => e | _ => f end = f) as K.
      { intros. destruct c0 as [|p|p]; try reflexivity.
        do 6 (destruct p as [p|p|]; try reflexivity). congruence. }
      rewrite K. cbn [bind]. do 2 f_equal. rewrite len_cons. lia. }
  rewrite snoc_app, <- (len_snoc l 58), parse_digit_app.
  destruct s as [|c s]; [reflexivity|]. destruct (dig 5 c) eqn:Ec; cbn [bind].
  2:{ destruct s; reflexivity. }
  rewrite (snoc_app _ c). rewrite <- (len_snoc _ c), parse_digit_app.
  destruct s as [|d s]; [reflexivity|]. cbn [andb]. destruct (dig 9 d) eqn:Ed; [|reflexivity].
  cbn [bind]. rewrite !len_snoc. rewrite !len_cons. do 2 f_equal; lia.
Qed.

Lemma whole_equiv s :
  parse_duration_whole s = ('(v, t) <- whole_list s ;; Ok (v, len s - len t)).
Proof.
  unfold parse_duration_whole. change 0 with (len (@nil Z)) at 1. change s with ([] ++ s) at 1.
  rewrite parse_digit_app. destruct s as [|a s]; [reflexivity|].
  unfold whole_list. destruct (dig 9 a) eqn:Ea; [|reflexivity]. cbn [bind].
  change (len [] + 1) with (len [a]). change (a :: s) with ([a] ++ s).
  destruct s as [|b s].
  { cbn. f_equal. }
  pose proof (len_nonneg s).
  replace (len [a] <? len ([a] ++ b :: s)) with true by (rewrite len_app, (len_cons b); lia).
  rewrite cget_app. cbn [bind]. rewrite dig_eq.
  destruct (dig 9 b) eqn:Eb.
  - rewrite <- len_snoc with (c := b). rewrite (snoc_app [a] b s).
    rewrite colon_equiv. replace ((a - 48) * 10 + (b - 48)) with (10 * (a - 48) + (b - 48)) by lia. reflexivity.
  - rewrite colon_equiv. reflexivity.
Qed.

Lemma colon_suffix (r : Z) s v t :
  (match s with
      | 58 :: t =>
        match t with
        | c :: d :: u => if dig 5 c && dig 9 d then Ok (60 * r + 10 * (c - 48) + (d - 48), u) else Fail
        | _ => Fail
        end
      | _ => Ok (r, s)
      end) = Ok (v, t) ->
  (s = t /\ v = r) \/ exists c d, s = 58 :: c :: d :: t /\ dig 5 c = true /\ dig 9 d = true /\ v = 60 * r + 10 * (c - 48) + (d - 48).
Proof.
  destruct s as [|c0 s]; [intros [= <- <-]; now left|].
  destruct (Z.eq_dec c0 58) as [->|N].
  - destruct s as [|c [|d s]]; try discriminate.
    destruct (dig 5 c) eqn:Ec; [|discriminate]. destruct (dig 9 d) eqn:Ed; [|discriminate].
    cbn [andb]. intros [= <- <-]. right. now exists c, d.
  - assert (forall X (e f : X), match c0 with 58 => e | _ => f end = f) as K.
    { intros. destruct c0 as [|p|p]; try reflexivity.
      do 6 (destruct p as [p|p|]; try reflexivity). congruence. }
    rewrite K. intros [= <- <-]. now left.
Qed.

Lemma dig9_digit c : dig 9 c = true -> digit (c - 48) /\ 48 + (c - 48) = c.
Proof. unfold dig, digit. lia. Qed.

Lemma dig5_digit c : dig 5 c = true -> 0 <= c - 48 <= 5 /\ 48 + (c - 48) = c.
Proof. unfold dig. lia. Qed.

Lemma dig9_of a : digit a -> dig 9 (48 + a) = true.
Proof. unfold dig, digit. lia. Qed.

Lemma dig5_of a : 0 <= a <= 5 -> dig 5 (48 + a) = true.
Proof. unfold dig. lia. Qed.

Lemma whole_list_spec s v t :
  whole_list s = Ok (v, t) -> exists w, s = w ++ t /\ whole_syntax w v.
Proof.
  unfold whole_list. destruct s as [|a s]; [discriminate|].
  destruct (dig 9 a) eqn:Ea; [|discriminate].
  destruct (dig9_digit _ Ea) as [Da Ha].
  assert (forall s', (match s' with
        | 58 :: t0 => match t0 with
          | c :: d :: u => if dig 5 c && dig 9 d then Ok (60 * (a - 48) + 10 * (c - 48) + (d - 48), u) else Fail
          | _ => Fail end
        | _ => Ok (a - 48, s') end) = Ok (v, t) ->
      exists w, a :: s' = w ++ t /\ whole_syntax w v) as One.
  { intros s' H. apply colon_suffix in H. destruct H as [[-> ->]|(c & d & -> & Ec & Ed & ->)].
    - exists [a]. split; [reflexivity|]. rewrite <- Ha at 1. now constructor.
    - destruct (dig5_digit _ Ec) as [Dc Hc], (dig9_digit _ Ed) as [Dd Hd].
      exists [a; 58; c; d]. split; [reflexivity|]. rewrite <- Ha, <- Hc, <- Hd at 1. now constructor. }
  destruct s as [|b s]; [apply (One [])|].
  destruct (dig 9 b) eqn:Eb; [|apply (One (b :: s))].
  destruct (dig9_digit _ Eb) as [Db Hb]. intros H. apply colon_suffix in H.
  destruct H as [[-> ->]|(c & d & -> & Ec & Ed & ->)].
  - exists [a; b]. split; [reflexivity|]. rewrite <- Ha, <- Hb at 1. now constructor.
  - destruct (dig5_digit _ Ec) as [Dc Hc], (dig9_digit _ Ed) as [Dd Hd].
    exists [a; b; 58; c; d]. split; [reflexivity|]. rewrite <- Ha, <- Hb, <- Hc, <- Hd at 1. now constructor.
Qed.

Lemma frac_list_spec s f : frac_list s = Ok f <-> frac_syntax s f.
Proof.
  split.
  - destruct s as [|c0 s]; [intros [= <-]; constructor|]. cbn [frac_list].
    destruct (Z.eq_dec c0 46) as [->|N].
    2:{ destruct c0 as [|p|p]; try discriminate. do 6 (destruct p as [p|p|]; try discriminate). congruence. }
    destruct s as [|a s]; [discriminate|].
    destruct (dig 9 a) eqn:Ea; [|discriminate]. destruct (dig9_digit _ Ea) as [Da Ha].
    destruct s as [|b s].
    { intros [= <-]. rewrite <- Ha at 1. now constructor. }
    destruct (dig 9 b) eqn:Eb; [|discriminate]. destruct (dig9_digit _ Eb) as [Db Hb].
    destruct s as [|c s].
    { intros [= <-]. rewrite <- Ha, <- Hb at 1. now constructor. }
    destruct (dig 9 c) eqn:Ec; [|discriminate]. destruct (dig9_digit _ Ec) as [Dc Hc].
    intros [= <-]. rewrite <- Ha, <- Hb, <- Hc at 1.
    change (46 :: 48 + (a - 48) :: 48 + (b - 48) :: 48 + (c - 48) :: s)
      with ([46; 48 + (a - 48); 48 + (b - 48); 48 + (c - 48)] ++ s). now constructor.
  - intros H. destruct H; cbn [frac_list app]; rewrite ?dig9_of by assumption; do 2 f_equal; lia.
Qed.

Lemma whole_list_complete w v f fs :
  whole_syntax w v -> frac_syntax f fs -> whole_list (w ++ f) = Ok (v, f).
Proof.
  intros H F.
  assert (Hf : f = [] \/ exists t, f = 46 :: t).
  { destruct F; [now left|right; eexists; reflexivity ..]. }
  destruct H; cbn [app whole_list]; rewrite ?dig9_of by assumption;
    destruct Hf as [->|[u ->]]; cbn [app];
    rewrite ?dig9_of, ?dig5_of by assumption; cbn [andb];
    repeat match goal with
    | |- Ok _ = Ok _ => do 2 f_equal; lia
    | |- context [dig 9 46] => change (dig 9 46) with false; cbn iota
    | |- context [dig 9 58] => change (dig 9 58) with false; cbn iota
    end; rewrite ?dig9_of, ?dig5_of by assumption; cbn [andb]; do 2 f_equal; lia.
Qed.

Lemma parse_duration_eq s :
  parse_duration s = ('(v, t) <- whole_list s ;; f <- frac_list t ;; Ok (v * 1000 + f)).
Proof.
  unfold parse_duration. rewrite whole_equiv.
  destruct (whole_list s) as [[v t]| | |] eqn:E; try reflexivity.
  cbn [bind]. destruct (whole_list_spec _ _ _ E) as (w & -> & _).
  replace (len (w ++ t) - len t) with (len w) by (rewrite len_app; lia).
  apply frac_equiv.
Qed.

Lemma parse_duration_spec s v : parse_duration s = Ok v <-> duration_syntax s v.
Proof.
  rewrite parse_duration_eq. split.
  - intros H. apply bind_ok in H. destruct H as ([w t] & Hw & H). apply bind_ok in H.
    destruct H as (f & Hf & H). injection H as <-.
    destruct (whole_list_spec _ _ _ Hw) as (w' & -> & S). apply frac_list_spec in Hf.
    exists w', w, t, f. repeat split; try assumption. lia.
  - intros (w & ws & f & fs & -> & Hw & Hf & ->).
    rewrite (whole_list_complete _ _ _ _ Hw Hf). cbn [bind].
    apply frac_list_spec in Hf. rewrite Hf. cbn [bind]. f_equal. lia.
Qed.

Ltac noub := repeat match goal with |- defined (match ?x with _ => _ end) => destruct x end; try exact I.

Lemma frac_list_defined t : defined (frac_list t).
Proof. unfold frac_list. noub. Qed.

Lemma whole_list_defined t : defined (whole_list t).
Proof.
  unfold whole_list. destruct t as [|a s]; [exact I|]. destruct (dig 9 a); [|exact I].
  destruct (match s with [] => _ | _ => _ end) as [r s2]. noub.
Qed.

Lemma parse_duration_defined s : defined (parse_duration s).
Proof.
  rewrite parse_duration_eq. pose proof (whole_list_defined s) as W.
  destruct (whole_list s) as [[v t]| | |]; try contradiction; try exact I.
  cbn [bind]. pose proof (frac_list_defined t) as F.
  destruct (frac_list t); try contradiction; exact I.
Qed.

Lemma duration_syntax_range s v : duration_syntax s v -> 0 <= v <= 5999999.
Proof.
  intros (w & ws & f & fs & _ & Hw & Hf & ->).
  assert (0 <= ws <= 5999) by (destruct Hw; unfold digit in *; lia).
  assert (0 <= fs <= 999) by (destruct Hf; unfold digit in *; lia). lia.
Qed.

(* ---- formatting ---- *)
Lemma two_digits_eq v : 0 <= v <= 99 -> two_digits v = [48 + v / 10; 48 + v mod 10].
Proof.
  intros H. unfold two_digits, u8. rewrite Z.quot_div_nonneg, Z.rem_mod_nonneg by lia.
  rewrite !Z.mod_small by lia. reflexivity.
Qed.

Lemma whole_syntax_eq w x y : whole_syntax w x -> x = y -> whole_syntax w y.
Proof. now intros H <-. Qed.

Lemma frac_syntax_eq w x y : frac_syntax w x -> x = y -> frac_syntax w y.
Proof. now intros H <-. Qed.

Lemma duration_to_string_syntax v : 0 <= v < 6000000 ->
  duration_syntax (duration_to_string v) v /\ (5 <= len (duration_to_string v) <= 9).
Proof.
  intros H. unfold duration_to_string, seconds_to_string.
  replace ((v <? 0) || (6000000 <=? v)) with false by lia.
  rewrite (Z.quot_div_nonneg v 1000), (Z.rem_mod_nonneg v 1000) by lia.
  assert (Hs : 0 <= v / 1000 <= 5999) by lia.
  rewrite (Z.quot_div_nonneg (v / 1000) 60), (Z.rem_mod_nonneg (v / 1000) 60) by lia.
  rewrite !two_digits_eq by lia.
  set (w := ([48 + v / 1000 / 60 / 10; 48 + (v / 1000 / 60) mod 10] ++ [58] ++
            [48 + v / 1000 mod 60 / 10; 48 + (v / 1000 mod 60) mod 10])).
  assert (W : whole_syntax w (v / 1000)).
  { subst w. cbn [app]. eapply whole_syntax_eq; [constructor; unfold digit; lia|lia]. }
  assert (Lw : len w = 5) by reflexivity. clearbody w.
  destruct (Z.eqb_spec (v mod 1000) 0) as [E|E].
  { split; [|rewrite Lw; lia]. exists w, (v / 1000), [], 0. rewrite app_nil_r.
    repeat split; try assumption; [constructor|lia]. }
  rewrite (Z.quot_div_nonneg (v mod 1000) 10), (Z.rem_mod_nonneg (v mod 1000) 10) by lia.
  destruct (Z.eqb_spec ((v mod 1000) mod 10) 0) as [E2|E2].
  { split; [|rewrite !len_app, Lw; cbn; lia].
    exists w, (v / 1000), ([46] ++ [48 + v mod 1000 / 10 / 10; 48 + (v mod 1000 / 10) mod 10]), (v mod 1000).
    repeat split; try assumption; [|lia].
    cbn [app]. eapply frac_syntax_eq; [constructor; unfold digit; lia|lia]. }
  split; [|rewrite !len_app, Lw; cbn; lia].
  exists w, (v / 1000), ([46] ++ [48 + v mod 1000 / 10 / 10; 48 + (v mod 1000 / 10) mod 10] ++ [48 + (v mod 1000) mod 10]), (v mod 1000).
  rewrite <- !app_assoc. unfold u8. rewrite (Z.mod_small (48 + _) 256) by lia.
  repeat split; try assumption; [|lia].
  cbn [app]. eapply frac_syntax_eq; [apply (F3 _ _ _ []); unfold digit; lia|lia].
Qed.

Lemma parse_duration_to_string v : 0 <= v < 6000000 -> parse_duration (duration_to_string v) = Ok v.
Proof. intros H. apply parse_duration_spec. now apply duration_to_string_syntax. Qed.

Lemma duration_to_string_out v : v < 0 \/ 6000000 <= v -> duration_to_string v = [].
Proof.
  intros H. unfold duration_to_string, seconds_to_string.
  replace ((v <? 0) || (6000000 <=? v)) with true by lia. reflexivity.
Qed.

Lemma duration_round_trip v : 0 <= v < 6000000 ->
  len (duration_to_string v) <= 9 /\ parse_duration (duration_to_string v) = Ok v.
Proof.
  intros H. split; [|now apply parse_duration_to_string].
  unfold duration_to_string, seconds_to_string.
  destruct ((v <? 0) || (6000000 <=? v)); [cbn; lia|].
  destruct (Z.rem v 1000 =? 0); [cbn; lia|].
  destruct (Z.rem (Z.rem v 1000) 10 =? 0); cbn; lia.
Qed.

Lemma duration_no_text v : ~ 0 <= v < 6000000 -> duration_to_string v = [].
Proof. intros H. apply duration_to_string_out. lia. Qed.

Lemma parse_duration_total s : (exists v, parse_duration s = Ok v /\ 0 <= v <= 5999999) \/ parse_duration s = Fail.
Proof.
  pose proof (parse_duration_defined s) as D. destruct (parse_duration s) as [v| | |] eqn:E; cbn in D; try contradiction.
  - left. exists v. split; [reflexivity|]. apply (duration_syntax_range s). now apply parse_duration_spec.
  - now right.
Qed.

Lemma trailing_text_accepted : exists s, parse_duration s = Ok 123 /\ parse_duration (s ++ [120; 121]) = Ok 123.
Proof. exists [48; 46; 49; 50; 51]. split; reflexivity. Qed.
