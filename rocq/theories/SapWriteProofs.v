(* Saving as SAP and loading the result back. *)
From Coq Require Import String.
From Verif Require Import Base BaseFacts InfoModel InfoSpec SapSpec WriterModel DurationProofs InfoProofs SapProofs WriterProofs.

(* ---- decimal and hexadecimal numbers ---- *)
Lemma dec_value_app s c : dec_value (s ++ [c]) = 10 * dec_value s + (c - 48).
Proof. unfold dec_value. now rewrite fold_left_app. Qed.

Lemma slice_snoc l i j : 0 <= i <= j -> j < len l -> slice l i (j + 1) = slice l i j ++ [at_ l j].
Proof.
  intros H1 H2. rewrite <- (slice_cat l i j (j + 1)) by lia. f_equal.
  rewrite slice_cons by lia. now rewrite slice_nil.
Qed.

Lemma fold_dec_ge s v : 0 <= v -> Forall dec_char s -> v <= fold_left (fun v c => 10 * v + (c - 48)) s v.
Proof.
  intros Hv H. revert v Hv. induction H as [|c s Hc Hs IH]; intros v Hv; cbn [fold_left]; [lia|].
  unfold dec_char in Hc. etransitivity; [|apply IH]; lia.
Qed.

Lemma parse_dec_loop_spec fuel module i e max r :
  0 <= i <= e -> e <= len module -> e - i <= Z.of_nat fuel -> 0 <= r <= max ->
  forall v, parse_dec_loop fuel module i e max r = Ok v <->
    (Forall dec_char (slice module i e) /\ v <= max
     /\ v = fold_left (fun v c => 10 * v + (c - 48)) (slice module i e) r).
Proof.
  revert i r. induction fuel as [|fuel IH]; intros i r Hi He Hf Hr v; cbn [parse_dec_loop].
  - replace e with i by lia. rewrite Z.ltb_irrefl, slice_nil. cbn [fold_left].
    split; [intros [= <-]; auto with zarith|]. intros (_ & _ & ->). reflexivity.
  - destruct (Z.ltb_spec i e) as [C|C].
    2:{ replace e with i by lia. rewrite slice_nil. cbn [fold_left].
        split; [intros [= <-]; auto with zarith|]. intros (_ & _ & ->). reflexivity. }
    rewrite get_ok by lia. cbn [bind]. rewrite (slice_cons module i e) by lia.
    destruct (Z.ltb_spec (at_ module i) 48); cbn [orb].
    { split; [discriminate|]. intros (F & _). inversion F; unfold dec_char in *; lia. }
    destruct (Z.ltb_spec 57 (at_ module i)).
    { split; [discriminate|]. intros (F & _). inversion F; unfold dec_char in *; lia. }
    cbv zeta. cbn [fold_left]. replace (r * 10 + at_ module i - 48) with (10 * r + (at_ module i - 48)) by lia.
    destruct (Z.ltb_spec max (10 * r + (at_ module i - 48))) as [M|M].
    + split; [discriminate|]. intros (F & L & E). inversion F as [|? ? F1 F2]; subst.
      pose proof (fold_dec_ge _ (10 * r + (at_ module i - 48)) ltac:(lia) F2). lia.
    + rewrite IH by lia. split; intros (F & L & E).
      * split; [constructor; [unfold dec_char; lia|exact F]|auto].
      * inversion F; auto.
Qed.

Lemma parse_dec_spec module i e min max v :
  0 <= i < e -> e <= len module -> 0 <= min <= max ->
  parse_dec module i e min max = Ok v <->
  Forall dec_char (slice module i e) /\ v = dec_value (slice module i e) /\ min <= v <= max.
Proof.
  intros Hi He Hm. unfold parse_dec. destruct (Z.ltb_spec i 0); [lia|].
  pose proof (parse_dec_loop_spec (length module) module i e max 0 ltac:(lia) He ltac:(unfold len in He; lia) ltac:(lia)) as S.
  destruct (parse_dec_loop (length module) module i e max 0) as [r| | |] eqn:E; cbn [bind].
  - destruct (proj1 (S r) eq_refl) as (F & L & V). fold (dec_value (slice module i e)) in V.
    destruct (Z.ltb_spec r min) as [C|C].
    + split; [discriminate|]. intros (_ & -> & ?). lia.
    + split; [intros [= <-]; auto with zarith|]. intros (_ & -> & _). now rewrite <- V.
  - split; [discriminate|]. intros (F & V & L).
    assert (K : @Fail Z = Ok v) by (apply S; fold (dec_value (slice module i e)); auto with zarith). discriminate.
  - split; [discriminate|]. intros (F & V & L).
    assert (K : @UB Z r = Ok v) by (apply S; fold (dec_value (slice module i e)); auto with zarith). discriminate.
  - split; [discriminate|]. intros (F & V & L).
    assert (K : @OutOfFuel Z = Ok v) by (apply S; fold (dec_value (slice module i e)); auto with zarith). discriminate.
Qed.

Lemma hex_digit_spec c d : hex_digit c = Ok d <-> hex_char c d.
Proof.
  unfold hex_digit. split.
  - destruct ((48 <=? c) && (c <=? 57)) eqn:E1; [intros [= <-]; apply HexDigit; lia|].
    destruct ((65 <=? c) && (c <=? 70)) eqn:E2; [intros [= <-]; replace (c - 65 + 10) with (c - 55) by lia; apply HexUpper; lia|].
    destruct ((97 <=? c) && (c <=? 102)) eqn:E3; [intros [= <-]; replace (c - 97 + 10) with (c - 87) by lia; apply HexLower; lia|].
    discriminate.
  - intros H. destruct H as [c H|c H|c H].
    + replace ((48 <=? c) && (c <=? 57)) with true by lia. reflexivity.
    + replace ((48 <=? c) && (c <=? 57)) with false by lia. replace ((65 <=? c) && (c <=? 70)) with true by lia. f_equal; lia.
    + replace ((48 <=? c) && (c <=? 57)) with false by lia. replace ((65 <=? c) && (c <=? 70)) with false by lia.
      replace ((97 <=? c) && (c <=? 102)) with true by lia. f_equal; lia.
Qed.

Lemma hex_char_range c d : hex_char c d -> 0 <= d < 16.
Proof. destruct 1; lia. Qed.

Lemma hex_char_fun c d d' : hex_char c d -> hex_char c d' -> d = d'.
Proof. intros H H'. inversion H; inversion H'; lia. Qed.

Lemma shiftl4 r : Z.shiftl r 4 = 16 * r.
Proof. rewrite Z.shiftl_mul_pow2 by lia. change (2 ^ 4) with 16. lia. Qed.

(* value of hexadecimal text read on from r *)
Inductive hex_from : Z -> list Z -> Z -> Prop :=
| HFnil r : hex_from r [] r
| HFcons r c s d v : hex_char c d -> hex_from (16 * r + d) s v -> hex_from r (c :: s) v.

Lemma hex_from_snoc r s v c d : hex_from r s v -> hex_char c d -> hex_from r (s ++ [c]) (16 * v + d).
Proof. induction 1; intros Hc; cbn [app]; [eapply HFcons; [eassumption|apply HFnil]|eapply HFcons; eauto]. Qed.

Lemma hex_number_from s v : hex_number s v <-> hex_from 0 s v.
Proof.
  split.
  - induction 1; [apply HFnil|now apply hex_from_snoc].
  - revert v. induction s as [|c s IH] using rev_ind; intros v H.
    + inversion H. constructor.
    + assert (K : forall r s v, hex_from r (s ++ [c]) v -> exists u d, hex_from r s u /\ hex_char c d /\ v = 16 * u + d).
      { clear. intros r s. revert r. induction s as [|a s IH]; intros r v H; cbn [app] in H; inversion H; subst.
        - match goal with H : hex_from _ [] _ |- _ => inversion H; subst end. exists r, d. repeat split; auto. constructor.
        - destruct (IH _ _ H5) as (u & d' & A & B & C). exists u, d'. repeat split; auto. econstructor; eauto. }
      destruct (K _ _ _ H) as (u & d & A & B & ->). constructor; auto.
Qed.

Lemma hex_from_ge r s v : 0 <= r -> hex_from r s v -> r <= v.
Proof.
  intros Hr H. induction H as [r|r c s d v Hc H IH]; [lia|]. apply hex_char_range in Hc. specialize (IH ltac:(lia)). lia.
Qed.

Lemma hex_from_zero r s v : hex_from r s v -> 0 <= r -> r <= 4095 \/ s = [] \/ 65535 < v.
Proof.
  intros H Hr. destruct (Z_le_gt_dec r 4095); [auto|]. destruct H as [|r c s d v Hc H]; [auto|].
  right; right. apply hex_char_range in Hc. apply hex_from_ge in H; lia.
Qed.

Lemma parse_hex_loop_spec fuel module i e r :
  0 <= i <= e -> e <= len module -> e - i <= Z.of_nat fuel -> 0 <= r <= 65535 ->
  forall v, parse_hex_loop fuel module i e r = Ok v <-> hex_from r (slice module i e) v /\ v <= 65535.
Proof.
  revert i r. induction fuel as [|fuel IH]; intros i r Hi He Hf Hr v; cbn [parse_hex_loop].
  - replace e with i by lia. rewrite Z.ltb_irrefl, slice_nil.
    split; [intros [= <-]; split; [constructor|lia]|]. intros [H _]. now inversion H.
  - destruct (Z.ltb_spec i e) as [C|C].
    2:{ replace e with i by lia. rewrite slice_nil.
        split; [intros [= <-]; split; [constructor|lia]|]. intros [H _]. now inversion H. }
    rewrite get_ok by lia. cbn [bind]. rewrite (slice_cons module i e) by lia.
    destruct (Z.ltb_spec 4095 r) as [M|M].
    { split; [discriminate|]. intros [H L]. apply hex_from_zero in H; [|lia]. destruct H as [H|[H|H]]; [lia|discriminate|lia]. }
    destruct (hex_digit (at_ module i)) as [d| | |] eqn:E; cbn [bind].
    2:{ split; [discriminate|]. intros [H _]. inversion H as [|? ? ? d ? Hc]; subst. apply hex_digit_spec in Hc. congruence. }
    2:{ split; [discriminate|]. intros [H _]. inversion H as [|? ? ? d ? Hc]; subst. apply hex_digit_spec in Hc. congruence. }
    2:{ split; [discriminate|]. intros [H _]. inversion H as [|? ? ? d ? Hc]; subst. apply hex_digit_spec in Hc. congruence. }
    apply hex_digit_spec in E. pose proof (hex_char_range _ _ E). rewrite shiftl4. rewrite IH by lia. split; intros [H1 H2].
    + split; [econstructor; eauto|lia].
    + split; [|lia]. inversion H1 as [|? ? ? d' ? Hc Hr']; subst. now rewrite (hex_char_fun _ _ _ E Hc).
Qed.

Lemma parse_hex_spec module i e v :
  0 <= i < e -> e <= len module ->
  parse_hex module i e = Ok v <-> hex_number (slice module i e) v /\ v <= 65535.
Proof.
  intros Hi He. unfold parse_hex. destruct (Z.ltb_spec i 0); [lia|].
  rewrite hex_number_from. apply parse_hex_loop_spec; unfold len in *; lia.
Qed.

(* ---- what the writer emits for numbers ---- *)
(* the decimal digits, most significant first *)
Fixpoint dec_digits (fuel : nat) (v : Z) : list Z :=
  match fuel with
  | O => []
  | S fuel => (if 10 <=? v then dec_digits fuel (v / 10) else []) ++ [48 + v mod 10]
  end.

Lemma u8_small v : 0 <= v < 256 -> u8 v = v.
Proof. intros H. unfold u8. apply Z.mod_small. lia. Qed.

Lemma emits_dec fuel v : 0 <= v < 10 ^ Z.of_nat (S fuel) -> emits (write_dec fuel v) (dec_digits (S fuel) v).
Proof.
  revert v. induction fuel as [|fuel IH]; intros v Hv.
  - change (10 ^ Z.of_nat 1) with 10 in Hv. cbn [write_dec dec_digits].
    destruct (Z.leb_spec 10 v); [lia|]. cbn [app]. eapply emits_eq; [apply emits_byte|].
    f_equal. rewrite u8_small by lia. lia.
  - replace (Z.of_nat (S (S fuel))) with (Z.succ (Z.of_nat (S fuel))) in Hv by lia.
    rewrite Z.pow_succ_r in Hv by lia. cbn [write_dec].
    change (dec_digits (S (S fuel)) v) with ((if 10 <=? v then dec_digits (S fuel) (v / 10) else []) ++ [48 + v mod 10]).
    destruct (Z.leb_spec 10 v).
    + apply emits_seq.
      * rewrite Z.quot_div_nonneg by lia. apply IH. split; [lia|]. apply Z.div_lt_upper_bound; lia.
      * eapply emits_eq; [apply emits_byte|]. f_equal. rewrite Z.rem_mod_nonneg by lia. apply u8_small. lia.
    + cbn [app]. eapply emits_eq; [apply emits_byte|]. f_equal. rewrite u8_small by lia. lia.
Qed.

Lemma dec_digits_spec fuel v : 0 <= v < 10 ^ Z.of_nat fuel ->
  Forall dec_char (dec_digits fuel v) /\ dec_value (dec_digits fuel v) = v.
Proof.
  revert v. induction fuel as [|fuel IH]; intros v Hv.
  - change (10 ^ Z.of_nat 0) with 1 in Hv. split; [constructor|]. cbn. lia.
  - replace (Z.of_nat (S fuel)) with (Z.succ (Z.of_nat fuel)) in Hv by lia.
    rewrite Z.pow_succ_r in Hv by lia. cbn [dec_digits]. destruct (Z.leb_spec 10 v).
    + destruct (IH (v / 10)) as [F V]; [split; [lia|apply Z.div_lt_upper_bound; lia]|].
      split; [apply Forall_app; split; [exact F|repeat constructor; unfold dec_char; lia]|].
      rewrite dec_value_app, V. lia.
    + split; [cbn [app]; repeat constructor; unfold dec_char; lia|]. cbn [app]. unfold dec_value; cbn [fold_left]. lia.
Qed.

Lemma dec_digits_nonempty fuel v : dec_digits (S fuel) v <> [].
Proof. cbn [dec_digits]. destruct (10 <=? v); [|discriminate]. destruct (dec_digits fuel (v / 10)); discriminate. Qed.

Definition hex_char_of (d : Z) : Z := if d <? 10 then 48 + d else 55 + d.

Definition hex4 (v : Z) : list Z :=
  [hex_char_of (v / 4096 mod 16); hex_char_of (v / 256 mod 16); hex_char_of (v / 16 mod 16); hex_char_of (v mod 16)].

Lemma land_15 v : Z.land v 15 = v mod 16.
Proof. change 15 with (Z.ones 4). now rewrite Z.land_ones by lia. Qed.

Lemma emits_hex_digit v i : 0 <= i -> emits (write_hex_digit v i) [hex_char_of (v / 2 ^ i mod 16)].
Proof.
  intros Hi. unfold write_hex_digit. cbv zeta. rewrite Z.shiftr_div_pow2 by lia. rewrite land_15.
  eapply emits_eq; [apply emits_byte|]. f_equal. unfold hex_char_of.
  generalize (v / 2 ^ i). intros x. destruct (Z.ltb_spec (x mod 16) 10); rewrite u8_small by lia; lia.
Qed.

Lemma hex_char_of_spec d : 0 <= d < 16 -> hex_char (hex_char_of d) d.
Proof.
  intros H. unfold hex_char_of. destruct (Z.ltb_spec d 10).
  - replace d with (48 + d - 48) at 2 by lia. apply HexDigit. lia.
  - replace d with (55 + d - 55) at 2 by lia. apply HexUpper. lia.
Qed.

Lemma hex4_number v : 0 <= v < 65536 -> hex_number (hex4 v) v.
Proof.
  intros H. apply hex_number_from. unfold hex4.
  eapply HFcons; [apply hex_char_of_spec; lia|]. eapply HFcons; [apply hex_char_of_spec; lia|].
  eapply HFcons; [apply hex_char_of_spec; lia|]. eapply HFcons; [apply hex_char_of_spec; lia|].
  replace (16 * (16 * (16 * (16 * 0 + v / 4096 mod 16) + v / 256 mod 16) + v / 16 mod 16) + v mod 16) with v by lia.
  constructor.
Qed.

(* ---- reading one header line ---- *)
Lemma ok3 (a b c a' b' c' : Z) : a = a' -> b = b' -> c = c' -> Ok (a, b, c) = Ok (a', b', c').
Proof. now intros -> -> ->. Qed.

Lemma len_snoc {A} (l : list A) x : len (l ++ [x]) = len l + 1.
Proof. rewrite len_app. reflexivity. Qed.

Lemma get_mid pre arg post k : 0 <= k < len arg -> get (pre ++ arg ++ post) (len pre + k) = Ok (at_ arg k).
Proof.
  intros H. pose proof (len_nonneg pre). pose proof (len_nonneg post).
  rewrite get_ok by (rewrite !len_app; lia). f_equal.
  rewrite at_app2 by lia. rewrite at_app1 by lia. f_equal. lia.
Qed.

Lemma get_head pre c post : get (pre ++ c :: post) (len pre) = Ok c.
Proof.
  transitivity (get (pre ++ [c] ++ post) (len pre + 0)); [f_equal; lia|].
  rewrite (get_mid pre [c] post 0); [reflexivity|]. change (len [c]) with 1. lia.
Qed.

Lemma get_range_mid pre arg post i j : 0 <= i <= j -> j <= len arg ->
  get_range (pre ++ arg ++ post) (len pre + i) (len pre + j) = Ok (slice arg i j).
Proof.
  intros H1 H2. pose proof (len_nonneg pre). pose proof (len_nonneg post).
  rewrite get_range_ok by (rewrite ?len_app; lia). f_equal.
  rewrite slice_app_r by lia. rewrite slice_app_l by lia. f_equal; lia.
Qed.

Lemma skip_tag_line fuel pre tag c post :
  Forall (fun c => 32 < c) tag -> c <= 32 -> len tag <= Z.of_nat fuel ->
  skip_tag fuel (pre ++ tag ++ c :: post) (len pre) = Ok (len pre + len tag).
Proof.
  revert pre fuel. induction tag as [|t tag IH]; intros pre fuel Ht Hc Hf.
  - cbn [app]. destruct fuel; cbn [skip_tag]; rewrite get_head; cbn [bind];
      (destruct (Z.ltb_spec 32 c); [lia|]); rewrite len_nil; f_equal; lia.
  - inversion Ht as [|? ? Ht1 Ht2]; subst. rewrite len_cons in *. pose proof (len_nonneg tag).
    destruct fuel as [|fuel]; [lia|]. cbn [skip_tag app]. rewrite get_head. cbn [bind].
    destruct (Z.ltb_spec 32 t); [|lia].
    match goal with |- context [?a <=? ?b] => replace (a <=? b) with false end.
    2:{ symmetry. apply Z.leb_gt. rewrite len_app, len_cons, len_app, len_cons. pose proof (len_nonneg post). lia. }
    specialize (IH (pre ++ [t]) fuel Ht2 Hc ltac:(lia)). rewrite <- app_assoc in IH. cbn [app] in IH.
    rewrite len_snoc in IH. rewrite IH. f_equal. lia.
Qed.

Definition ends_visible (l : list Z) : Prop := exists a c, l = a ++ [c] /\ 32 < c.

Lemma ends_visible_cons c l : ends_visible (c :: l) -> l <> [] -> ends_visible l.
Proof.
  intros (a & d & E & Hd) H. destruct a as [|x a]; cbn [app] in E; [injection E as _ ->; contradiction|].
  injection E as _ ->. exists a, d. auto.
Qed.

Lemma scan_arg_tail fuel pre arg post s e :
  Forall arg_char arg -> (arg <> [] -> ends_visible arg) -> 0 <= s -> s < len pre ->
  (arg = [] -> e < 0) -> len arg + 1 <= Z.of_nat fuel ->
  scan_arg fuel (pre ++ arg ++ 13 :: 10 :: post) (len pre) s e
  = Ok (len pre + len arg + 1, s, len pre + len arg).
Proof.
  revert pre fuel e. induction arg as [|c arg IH]; intros pre fuel e Ha Hv Hs1 Hs Hn Hf.
  - specialize (Hn eq_refl). cbn [app]. rewrite len_nil in *. destruct fuel as [|fuel]; [lia|].
    cbn [scan_arg]. rewrite get_head. cbn [bind]. change (32 <? 13) with false. cbn [negb]. cbv iota zeta.
    destruct (Z.ltb_spec e 0); [|lia]. change (13 =? 10) with false. cbv iota.
    match goal with |- context [?a <=? ?b] => replace (a <=? b) with false end.
    2:{ symmetry. apply Z.leb_gt. rewrite len_app, !len_cons. pose proof (len_nonneg post). lia. }
    replace (pre ++ 13 :: 10 :: post) with ((pre ++ [13]) ++ 10 :: post) by (rewrite <- app_assoc; reflexivity).
    replace (len pre + 1) with (len (pre ++ [13])) by apply len_snoc.
    destruct fuel as [|fuel]; cbn [scan_arg]; rewrite get_head; cbn [bind]; change (32 <? 10) with false; cbv iota zeta;
      change (10 =? 10) with true; cbv iota; destruct (Z.ltb_spec (len pre) 0); try lia;
      rewrite !Z.add_0_r, len_app, len_cons, len_nil; apply ok3; lia.
  - inversion Ha as [|? ? [Hc Hc10] Ha']; subst. rewrite len_cons in *. pose proof (len_nonneg arg).
    destruct fuel as [|fuel]; [lia|]. cbn [scan_arg app]. rewrite get_head. cbn [bind].
    assert (L : (len (pre ++ c :: arg ++ 13 :: 10 :: post) <=? len pre + 1) = false).
    { apply Z.leb_gt. rewrite len_app, len_cons, len_app, !len_cons. pose proof (len_nonneg post). lia. }
    assert (R : forall e', (arg = [] -> e' < 0) ->
      scan_arg fuel (pre ++ c :: arg ++ 13 :: 10 :: post) (len pre + 1) s e' = Ok (len pre + (1 + len arg) + 1, s, len pre + (1 + len arg))).
    { intros e' He'. specialize (IH (pre ++ [c]) fuel e' Ha').
      rewrite <- app_assoc in IH. cbn [app] in IH. rewrite len_snoc in IH.
      rewrite IH; [apply ok3; lia|intros Hne; eapply ends_visible_cons; [apply Hv; discriminate|exact Hne]|lia|lia|exact He'|lia]. }
    destruct (Z.ltb_spec 32 c) as [V|V].
    + rewrite Hc by exact V. cbv zeta. destruct (Z.ltb_spec s 0); [lia|]. rewrite L. apply R. lia.
    + cbv zeta. destruct (Z.eqb_spec c 10); [contradiction|]. rewrite L. apply R.
      intros ->. destruct (Hv ltac:(discriminate)) as (a & d & E & Hd). destruct a as [|x a]; cbn [app] in E.
      * injection E as ->. lia.
      * injection E as _ E. destruct a; discriminate.
Qed.

Lemma scan_arg_line fuel pre arg post :
  Forall arg_char arg -> ends_visible arg -> (exists c r, arg = c :: r /\ 32 < c) -> len arg + 2 <= Z.of_nat fuel ->
  scan_arg fuel (pre ++ 32 :: arg ++ 13 :: 10 :: post) (len pre) (-1) (-1)
  = Ok (len pre + 1 + len arg + 1, len pre + 1, len pre + 1 + len arg).
Proof.
  intros Ha Hv (c & r & -> & Hc) Hf. rewrite len_cons in *. pose proof (len_nonneg r). pose proof (len_nonneg post).
  pose proof (len_nonneg pre).
  destruct fuel as [|[|fuel]]; [lia|lia|]. cbn [scan_arg app]. rewrite get_head. cbn [bind]. change (32 <? 32) with false.
  cbv iota zeta. change (-1 <? 0) with true. change (32 =? 10) with false. cbv iota.
  match goal with |- context [?a <=? ?b] => replace (a <=? b) with false end.
  2:{ symmetry. apply Z.leb_gt. rewrite len_app, !len_cons, len_app, !len_cons. lia. }
  replace (pre ++ 32 :: c :: r ++ 13 :: 10 :: post) with ((pre ++ [32]) ++ c :: r ++ 13 :: 10 :: post) by (rewrite <- app_assoc; reflexivity).
  replace (len pre + 1) with (len (pre ++ [32])) by apply len_snoc.
  rewrite get_head. cbn [bind]. inversion Ha as [|? ? [Hc1 Hc2] Ha']; subst.
  destruct (Z.ltb_spec 32 c); [|lia]. rewrite Hc1 by exact Hc. cbv zeta.
  match goal with |- context [?a <=? ?b] => replace (a <=? b) with false end.
  2:{ symmetry. apply Z.leb_gt. rewrite !len_app, !len_cons, len_app, !len_cons. lia. }
  replace ((pre ++ [32]) ++ c :: r ++ 13 :: 10 :: post) with (((pre ++ [32]) ++ [c]) ++ r ++ 13 :: 10 :: post) by (rewrite <- app_assoc; reflexivity).
  replace (len (pre ++ [32]) + 1) with (len ((pre ++ [32]) ++ [c])) by (rewrite (len_app _ [c]), len_cons, len_nil; lia).
  rewrite scan_arg_tail; [| assumption | | apply len_nonneg | | lia | lia ].
  - rewrite !len_app, !len_cons, !len_nil. apply ok3; lia.
  - intros Hne. eapply ends_visible_cons; [exact Hv|exact Hne].
  - rewrite (len_app _ [c]), len_cons, len_nil. lia.
Qed.

Lemma scan_arg_none fuel pre post : 1 <= Z.of_nat fuel ->
  scan_arg fuel (pre ++ 13 :: 10 :: post) (len pre) (-1) (-1) = Ok (len pre + 1, -1, len pre).
Proof.
  intros Hf. pose proof (len_nonneg post). pose proof (len_nonneg pre). destruct fuel as [|fuel]; [lia|]. cbn [scan_arg].
  rewrite get_head. cbn [bind]. change (32 <? 13) with false. change (13 =? 10) with false. change (-1 <? 0) with true. cbv iota zeta.
  match goal with |- context [?a <=? ?b] => replace (a <=? b) with false end.
  2:{ symmetry. apply Z.leb_gt. rewrite len_app, !len_cons. lia. }
  replace (pre ++ 13 :: 10 :: post) with ((pre ++ [13]) ++ 10 :: post) by (rewrite <- app_assoc; reflexivity).
  replace (len pre + 1) with (len (pre ++ [13])) by apply len_snoc.
  destruct fuel as [|fuel]; cbn [scan_arg]; rewrite get_head; cbn [bind]; change (32 <? 10) with false; cbv iota zeta;
    change (10 =? 10) with true; cbv iota; destruct (Z.ltb_spec (len pre) 0); try lia; rewrite len_app, len_cons, len_nil; reflexivity.
Qed.

(* ---- reading a header made of lines ---- *)
Record hline := mkLine { h_tag : list Z; h_arg : option (list Z) }.

Definition line_text (l : hline) : list Z :=
  h_tag l ++ (match h_arg l with Some a => 32 :: a | None => [] end) ++ [13; 10].

Definition line_ok (l : hline) : Prop :=
  (exists c r, h_tag l = c :: r /\ c <> 255) /\ Forall (fun c => 32 < c) (h_tag l)
  /\ match h_arg l with
     | Some a => Forall arg_char a /\ ends_visible a /\ exists c r, a = c :: r /\ 32 < c
     | None => True
     end.

Definition reads (l : hline) (s s' : sap_state) : Prop :=
  match h_arg l with
  | Some a => forall pre post, sap_line (pre ++ a ++ post) (h_tag l) (len pre) (len pre + len a) s = Ok s'
  | None => forall module e, sap_line module (h_tag l) (-1) e s = Ok s'
  end.

Lemma get_range_prefix pre arg post : get_range (pre ++ arg ++ post) (len pre) (len pre + len arg) = Ok arg.
Proof.
  pose proof (get_range_mid pre arg post 0 (len arg) ltac:(pose proof (len_nonneg arg); lia) ltac:(lia)) as H.
  rewrite Z.add_0_r in H. rewrite H, slice_full. reflexivity.
Qed.

Lemma sap_loop_line fuel pre l post s s' :
  line_ok l -> reads l s s' -> 7 <= len post ->
  sap_loop (S fuel) (pre ++ line_text l ++ post) (len pre) s
  = sap_loop fuel (pre ++ line_text l ++ post) (len (pre ++ line_text l)) s'.
Proof.
  destruct l as [tag arg]. unfold line_ok, reads, line_text. cbn [h_tag h_arg].
  intros ((c0 & r0 & Etag & Hc0) & Htag & Harg) Hr Hp.
  set (module := pre ++ _ ++ post).
  assert (G : get module (len pre) = Ok c0).
  { unfold module. rewrite Etag. cbn [app]. apply get_head. }
  pose proof (len_nonneg pre). pose proof (len_nonneg tag).
  cbn [sap_loop]. rewrite G. cbn [bind]. destruct (Z.eqb_spec c0 255); [contradiction|]. cbv zeta.
  destruct arg as [arg|].
  - destruct Harg as (Ha & Hv & Hfst). pose proof (len_nonneg arg).
    assert (Em : module = pre ++ tag ++ 32 :: (arg ++ 13 :: 10 :: post)).
    { unfold module. repeat (rewrite <- !app_assoc; cbn [app]). reflexivity. }
    assert (El : len module = len pre + len tag + 1 + len arg + 2 + len post).
    { rewrite Em, !len_app, !len_cons, len_app, !len_cons. lia. }
    assert (Fu : Z.of_nat (length module) = len module) by reflexivity.
    assert (T : forall F, len module <= Z.of_nat F -> skip_tag F module (len pre) = Ok (len pre + len tag)).
    { intros F HF. rewrite Em. apply skip_tag_line; [assumption|lia|lia]. }
    rewrite T by lia. cbn [bind].
    assert (T2 : get_range module (len pre) (len pre + len tag) = Ok tag) by (rewrite Em; apply get_range_prefix).
    rewrite T2. cbn [bind].
    assert (Em2 : module = (pre ++ tag) ++ 32 :: arg ++ 13 :: 10 :: post) by (rewrite Em, <- app_assoc; reflexivity).
    assert (T3 : forall F, len module <= Z.of_nat F -> scan_arg F module (len pre + len tag) (-1) (-1)
      = Ok (len pre + len tag + 1 + len arg + 1, len pre + len tag + 1, len pre + len tag + 1 + len arg)).
    { intros F HF. rewrite Em2. rewrite <- (len_app pre tag). apply scan_arg_line; [assumption..|lia]. }
    rewrite T3 by lia. cbn [bind].
    match goal with |- context [?a <=? ?b] => replace (a <=? b) with false by (symmetry; apply Z.leb_gt; lia) end.
    assert (Em3 : module = (pre ++ tag ++ [32]) ++ arg ++ 13 :: 10 :: post).
    { rewrite Em2, <- !app_assoc. reflexivity. }
    assert (E3 : len pre + len tag + 1 = len (pre ++ tag ++ [32])).
    { rewrite app_assoc, len_snoc, len_app. reflexivity. }
    assert (T4 : sap_line module tag (len pre + len tag + 1) (len pre + len tag + 1 + len arg) s = Ok s').
    { rewrite Em3, E3. apply Hr. }
    rewrite T4. cbn [bind]. f_equal.
    rewrite !len_app. rewrite len_cons. change (len [13; 10]) with 2. lia.
  - assert (Em : module = pre ++ tag ++ 13 :: (10 :: post)).
    { unfold module. cbn [app]. rewrite <- !app_assoc. reflexivity. }
    assert (El : len module = len pre + len tag + 2 + len post).
    { rewrite Em, !len_app, !len_cons. lia. }
    assert (Fu : Z.of_nat (length module) = len module) by reflexivity.
    assert (T : forall F, len module <= Z.of_nat F -> skip_tag F module (len pre) = Ok (len pre + len tag)).
    { intros F HF. rewrite Em. apply skip_tag_line; [assumption|lia|lia]. }
    rewrite T by lia. cbn [bind].
    assert (T2 : get_range module (len pre) (len pre + len tag) = Ok tag) by (rewrite Em; apply get_range_prefix).
    rewrite T2. cbn [bind].
    assert (Em2 : module = (pre ++ tag) ++ 13 :: 10 :: post) by (rewrite Em, <- app_assoc; reflexivity).
    assert (T3 : forall F, len module <= Z.of_nat F -> scan_arg F module (len pre + len tag) (-1) (-1)
      = Ok (len pre + len tag + 1, -1, len pre + len tag)).
    { intros F HF. rewrite Em2. rewrite <- (len_app pre tag). apply scan_arg_none. lia. }
    rewrite T3 by lia. cbn [bind].
    match goal with |- context [?a <=? ?b] => replace (a <=? b) with false by (symmetry; apply Z.leb_gt; lia) end.
    rewrite Hr. cbn [bind]. f_equal. rewrite !len_app. rewrite len_nil. change (len [13; 10]) with 2. lia.
Qed.

Inductive reads_all : list hline -> sap_state -> sap_state -> Prop :=
| ra_nil s : reads_all [] s s
| ra_cons l r s s' s'' : line_ok l -> reads l s s' -> reads_all r s' s'' -> reads_all (l :: r) s s''.

Lemma reads_all_app a b s s' s'' : reads_all a s s' -> reads_all b s' s'' -> reads_all (a ++ b) s s''.
Proof. induction 1; intros Hb; cbn [app]; [exact Hb|econstructor; eauto]. Qed.

Lemma sap_loop_lines lines fuel pre payload s s' :
  reads_all lines s s' -> 7 <= len payload -> at_ payload 0 = 255 -> (length lines <= fuel)%nat ->
  sap_loop fuel (pre ++ concat (map line_text lines) ++ payload) (len pre) s
  = Ok (len pre + len (concat (map line_text lines)), s').
Proof.
  intros H. revert fuel pre. induction H as [s|l r s s' s'' Hl Hr Hrest IH]; intros fuel pre Hp Hff Hf.
  - cbn [map concat app]. rewrite len_nil, Z.add_0_r.
    destruct payload as [|c payload]; [change (len (@nil Z)) with 0 in Hp; lia|].
    change (at_ (c :: payload) 0) with c in Hff. subst c.
    destruct fuel; cbn [sap_loop]; rewrite get_head; reflexivity.
  - cbn [map concat length] in *. destruct fuel as [|fuel]; [lia|]. rewrite <- app_assoc.
    assert (7 <= len (concat (map line_text r) ++ payload)).
    { rewrite len_app. pose proof (len_nonneg (concat (map line_text r))). lia. }
    rewrite (sap_loop_line fuel pre l _ s s') by assumption.
    rewrite (app_assoc pre). rewrite IH by (assumption || lia). rewrite !len_app. do 2 f_equal. lia.
Qed.

(* ---- the lines the writer emits ---- *)
Definition text_line (tag t : list Z) : hline :=
  mkLine tag (Some (34 :: (match t with [] => str "<?>" | _ => t end) ++ [34])).
Definition dec_line (tag : list Z) (v : Z) : hline := mkLine tag (Some (dec_digits 11 v)).
Definition hex_lines (tag : list Z) (v : Z) : list hline :=
  if v <? 0 then [] else [mkLine tag (Some (hex4 v))].
Definition time_line (d : Z) (loop : bool) : hline :=
  mkLine (str "TIME") (Some (duration_to_string d ++ (if loop then str " LOOP" else []))).
Fixpoint time_lines (n : nat) (durs : list Z) (loops : list bool) : list hline :=
  match n, durs, loops with
  | S n, d :: durs, l :: loops => if d <? 0 then [] else time_line d l :: time_lines n durs loops
  | _, _, _ => []
  end.

Definition fastplay_written (type : Z) (ntsc : bool) (fastplay : Z) : bool :=
  negb (fastplay =? (if type =? 83 then 78 else 312)) || ntsc.

Definition sap_lines (inf : info) (type init player : Z) : list hline :=
  [text_line (str "AUTHOR") (i_author inf)] ++ [text_line (str "NAME") (i_title inf)] ++ [text_line (str "DATE") (i_date inf)]
  ++ (if 1 <? i_songs inf then [dec_line (str "SONGS") (i_songs inf)] ++
        (if 0 <? i_defsong inf then [dec_line (str "DEFSONG") (i_defsong inf)] else []) else [])
  ++ (if 1 <? i_channels inf then [mkLine (str "STEREO") None] else [])
  ++ (if i_ntsc inf then [mkLine (str "NTSC") None] else [])
  ++ [mkLine (str "TYPE") (Some [type])]
  ++ (if fastplay_written type (i_ntsc inf) (i_fastplay inf) then [dec_line (str "FASTPLAY") (i_fastplay inf)] else [])
  ++ (if type =? 67 then hex_lines (str "MUSIC") (i_music inf) else [])
  ++ hex_lines (str "INIT") init ++ hex_lines (str "PLAYER") player ++ hex_lines (str "COVOX") (i_covox inf)
  ++ time_lines (Z.to_nat (i_songs inf)) (i_durations inf) (i_loops inf).

Definition lines_text (l : list hline) : list Z := concat (map line_text l).

Lemma lines_text_app a b : lines_text (a ++ b) = lines_text a ++ lines_text b.
Proof. unfold lines_text. now rewrite map_app, concat_app. Qed.

Lemma lines_text_one l : lines_text [l] = line_text l.
Proof. unfold lines_text. cbn [map concat]. apply app_nil_r. Qed.

Lemma map_u8 l : bytes l -> map u8 l = l.
Proof. induction 1 as [|c l Hc Hl IH]; cbn [map]; [reflexivity|]. rewrite IH, u8_small by (unfold byte in Hc; lia). reflexivity. Qed.

Lemma emits_text_tag tag t : bytes tag -> bytes t ->
  emits (write_text_sap_tag (tag ++ [32]) t) (line_text (text_line tag t)).
Proof.
  intros Ht Hb. unfold write_text_sap_tag. eapply emits_eq; [emits_auto|].
  rewrite map_app, (map_u8 tag) by assumption.
  assert (E : map u8 (match t with [] => str "<?>" | _ :: _ => t end) = match t with [] => str "<?>" | _ => t end).
  { destruct t; [reflexivity|]. now apply map_u8. }
  rewrite E. unfold line_text, text_line. cbn [h_tag h_arg]. change (u8 34) with 34. change (u8 13) with 13. change (u8 10) with 10.
  change (map u8 [32]) with [32]. rewrite <- !app_assoc. cbn [app]. rewrite <- !app_assoc. reflexivity.
Qed.

Lemma emits_dec_tag tag v : bytes tag -> 0 <= v < 10 ^ 11 ->
  emits (write_dec_sap_tag (tag ++ [32]) v) (line_text (dec_line tag v)).
Proof.
  intros Ht Hv. unfold write_dec_sap_tag. eapply emits_eq.
  - apply emits_seqs. eapply ea_cons; [apply emits_string|]. eapply ea_cons; [apply emits_dec; exact Hv|]. emits_auto.
  - rewrite map_app, (map_u8 tag) by assumption. unfold line_text, dec_line. cbn [h_tag h_arg].
    change (map u8 [32]) with [32]. change (u8 13) with 13. change (u8 10) with 10.
    rewrite <- !app_assoc. cbn [app]. reflexivity.
Qed.

Lemma emits_hex_tag tag v : bytes tag ->
  emits (write_hex_sap_tag (tag ++ [32]) v) (lines_text (hex_lines tag v)).
Proof.
  intros Ht. unfold write_hex_sap_tag, hex_lines. destruct (v <? 0); [apply emits_wok|]. rewrite lines_text_one.
  eapply emits_eq.
  - apply emits_seqs. eapply ea_cons; [apply emits_string|]. do 4 (eapply ea_cons; [apply emits_hex_digit; lia|]). emits_auto.
  - rewrite map_app, (map_u8 tag) by assumption. unfold line_text, hex4. cbn [h_tag h_arg].
    change (map u8 [32]) with [32]. change (u8 13) with 13. change (u8 10) with 10.
    change (2 ^ 12) with 4096. change (2 ^ 8) with 256. change (2 ^ 4) with 16. change (2 ^ 0) with 1.
    rewrite Z.div_1_r. rewrite <- !app_assoc. cbn [app]. reflexivity.
Qed.

Lemma emits_lines_if (b : bool) f l : emits f (lines_text l) -> emits (wif b f) (lines_text (if b then l else [])).
Proof. destruct b; cbn [wif]; [auto|intros _; apply emits_wok]. Qed.

Lemma bytes_cat a b : bytes a -> bytes b -> bytes (a ++ b).
Proof. intros Ha Hb. apply Forall_app. auto. Qed.

Lemma Ok_inj {A} (a b : A) : Ok a = Ok b -> a = b.
Proof. congruence. Qed.

Lemma duration_to_string_bytes d : bytes (duration_to_string d).
Proof.
  unfold duration_to_string. destruct (seconds_to_string d) as [s| | |] eqn:E; try constructor.
  assert (T : forall v, bytes (two_digits v)).
  { intros v. unfold two_digits. constructor; [apply u8_byte|constructor; [apply u8_byte|constructor]]. }
  assert (B1 : forall v, 0 <= v < 256 -> bytes [v]) by (intros v Hv; constructor; [exact Hv|constructor]).
  assert (B : bytes s).
  { unfold seconds_to_string in E. destruct ((d <? 0) || (6000000 <=? d)); [discriminate|]. cbv zeta in E. apply Ok_inj in E. subst s.
    apply bytes_cat; [apply T|]. apply bytes_cat; [apply B1; lia|apply T]. }
  cbv zeta. destruct (Z.rem d 1000 =? 0); [exact B|].
  assert (B2 : bytes (s ++ [46] ++ two_digits (Z.quot (Z.rem d 1000) 10))).
  { apply bytes_cat; [exact B|]. apply bytes_cat; [apply B1; lia|apply T]. }
  destruct (Z.rem (Z.rem d 1000) 10 =? 0); [exact B2|].
  apply bytes_cat; [exact B2|]. apply B1, u8_byte.
Qed.

Lemma emits_times n inf k :
  Z.of_nat n + k <= len (i_durations inf) -> Z.of_nat n + k <= len (i_loops inf) -> 0 <= k ->
  emits (write_times n inf k)
    (lines_text (time_lines n (skipn (Z.to_nat k) (i_durations inf)) (skipn (Z.to_nat k) (i_loops inf)))).
Proof.
  revert k. induction n as [|n IH]; intros k H1 H2 Hk; [apply emits_wok|]. cbn [write_times].
  destruct (nth_error (i_durations inf) (Z.to_nat k)) as [d|] eqn:Ed.
  2:{ apply nth_error_None in Ed. unfold len in *. lia. }
  destruct (nth_error (i_loops inf) (Z.to_nat k)) as [lp|] eqn:El.
  2:{ apply nth_error_None in El. unfold len in *. lia. }
  assert (Sk : forall A (l : list A) x, nth_error l (Z.to_nat k) = Some x -> skipn (Z.to_nat k) l = x :: skipn (Z.to_nat (k + 1)) l).
  { intros A l x Hx. replace (Z.to_nat (k + 1)) with (S (Z.to_nat k)) by lia. revert Hx. generalize (Z.to_nat k). clear.
    intros m. revert l. induction m as [|m IH]; intros [|y l] Hx; cbn [nth_error skipn] in *; try discriminate; [congruence|].
    rewrite (IH _ Hx). destruct l; reflexivity. }
  rewrite (Sk _ _ _ Ed), (Sk _ _ _ El). cbn [time_lines].
  eapply emits_bind; [apply (get_closed _ _ d); [lia|exact Ed]|].
  destruct (d <? 0); [apply emits_wok|].
  eapply emits_bind.
  { unfold api_get_loop. destruct (Z.ltb_spec k 0); [lia|]. rewrite El. reflexivity. }
  cbv zeta. change (time_line d lp :: ?r) with ([time_line d lp] ++ r). rewrite lines_text_app, lines_text_one.
  eapply emits_eq.
  - apply emits_seqs. eapply ea_cons; [apply emits_string|]. eapply ea_cons; [apply emits_bytes_full|].
    eapply ea_cons; [apply emits_if, emits_string|]. eapply ea_cons; [apply emits_byte|]. eapply ea_cons; [apply emits_byte|].
    eapply ea_cons; [apply IH; lia|]. apply ea_nil.
  - unfold line_text, time_line. cbn [h_tag h_arg]. rewrite app_nil_r.
    change (map u8 (str "TIME ")) with (str "TIME" ++ [32]). change (u8 13) with 13. change (u8 10) with 10.
    replace (if lp then map u8 (str " LOOP") else []) with (if lp then str " LOOP" else []) by (destruct lp; reflexivity).
    rewrite <- !app_assoc. cbn [app]. rewrite <- !app_assoc. cbn [app]. reflexivity.
Qed.

Definition sap_text_bytes (inf : info) : Prop := bytes (i_author inf) /\ bytes (i_title inf) /\ bytes (i_date inf).

Lemma emits_sap_header inf type init player :
  sap_text_bytes inf -> i_songs inf < 10 ^ 11 -> i_defsong inf < 10 ^ 11 -> 0 <= i_fastplay inf < 10 ^ 11 -> 0 <= type < 256 ->
  i_songs inf <= len (i_durations inf) -> i_songs inf <= len (i_loops inf) ->
  emits (write_sap_header inf type init player) (str "SAP" ++ [13; 10] ++ lines_text (sap_lines inf type init player)).
Proof.
  intros (Ha & Ht & Hd) Hs Hds Hf Hty Hl1 Hl2. pose proof (len_nonneg (i_durations inf)). pose proof (len_nonneg (i_loops inf)).
  unfold write_sap_header, sap_lines.
  assert (BT : forall s, forallb (fun c => (0 <=? c) && (c <? 256)) s = true -> bytes s).
  { intros s Hx. apply Forall_forall. intros c Hc. rewrite forallb_forall in Hx. specialize (Hx c Hc). unfold byte. lia. }
  rewrite !lines_text_app, !lines_text_one.
  eapply emits_eq.
  - apply emits_seqs.
    eapply ea_cons; [apply emits_string|].
    eapply ea_cons; [apply (emits_text_tag (str "AUTHOR")); [apply BT; reflexivity|exact Ha]|].
    eapply ea_cons; [apply (emits_text_tag (str "NAME")); [apply BT; reflexivity|exact Ht]|].
    eapply ea_cons; [apply (emits_text_tag (str "DATE")); [apply BT; reflexivity|exact Hd]|].
    eapply ea_cons.
    { instantiate (1 := lines_text (if 1 <? i_songs inf then [dec_line (str "SONGS") (i_songs inf)] ++
        (if 0 <? i_defsong inf then [dec_line (str "DEFSONG") (i_defsong inf)] else []) else [])).
      destruct (Z.ltb_spec 1 (i_songs inf)); cbn [wif]; [|apply emits_wok].
      rewrite lines_text_app, lines_text_one.
      apply emits_seq; [apply (emits_dec_tag (str "SONGS")); [apply BT; reflexivity|lia]|].
      destruct (Z.ltb_spec 0 (i_defsong inf)); cbn [wif]; [|apply emits_wok]. rewrite lines_text_one.
      apply (emits_dec_tag (str "DEFSONG")); [apply BT; reflexivity|lia]. }
    eapply ea_cons; [apply emits_if, emits_string|].
    eapply ea_cons; [apply emits_if, emits_string|].
    eapply ea_cons; [apply emits_string|]. eapply ea_cons; [apply emits_byte|]. eapply ea_cons; [apply emits_byte|].
    eapply ea_cons; [apply emits_byte|].
    eapply ea_cons; [apply emits_if; apply (emits_dec_tag (str "FASTPLAY")); [apply BT; reflexivity|lia]|].
    eapply ea_cons; [apply emits_if; apply (emits_hex_tag (str "MUSIC")); apply BT; reflexivity|].
    eapply ea_cons; [apply (emits_hex_tag (str "INIT")); apply BT; reflexivity|].
    eapply ea_cons; [apply (emits_hex_tag (str "PLAYER")); apply BT; reflexivity|].
    eapply ea_cons; [apply (emits_hex_tag (str "COVOX")); apply BT; reflexivity|].
    eapply ea_cons; [apply emits_times; lia|]. apply ea_nil.
  - change (skipn (Z.to_nat 0) (i_durations inf)) with (i_durations inf).
    change (skipn (Z.to_nat 0) (i_loops inf)) with (i_loops inf).
    change (map u8 (str "SAP" ++ [13; 10])) with (str "SAP" ++ [13; 10]). change (u8 13) with 13. change (u8 10) with 10.
    rewrite u8_small by lia. rewrite app_nil_r. rewrite <- !app_assoc. do 6 f_equal.
    fold (fastplay_written type (i_ntsc inf) (i_fastplay inf)).
    destruct (1 <? i_channels inf), (i_ntsc inf), (type =? 67); destruct (fastplay_written type _ (i_fastplay inf)); rewrite ?lines_text_one; reflexivity.
Qed.

(* ---- how each line is read ---- *)
Ltac pick_tag := unfold sap_line; cbv zeta;
  repeat match goal with |- context [eqb_list ?a ?b] =>
    let v := eval vm_compute in (eqb_list a b) in change (eqb_list a b) with v end; cbv iota.

Lemma cstr_id t : Forall (fun c => c <> 0) t -> cstr t = t.
Proof. induction 1 as [|c t Hc Ht IH]; cbn [cstr]; [reflexivity|]. destruct (Z.eqb_spec c 0); [contradiction|]. now rewrite IH. Qed.

Lemma parse_text_line pre t post : Forall sap_char t -> t <> unknown_text ->
  let a := 34 :: (match t with [] => str "<?>" | _ => t end) ++ [34] in
  parse_text (pre ++ a ++ post) (len pre) (len pre + len a) = Ok t.
Proof.
  intros Ht Hu a. set (v := match t with [] => str "<?>" | _ => t end) in a.
  pose proof (len_nonneg pre). pose proof (len_nonneg v).
  assert (La : len a = len v + 2) by (unfold a; rewrite len_cons, len_app; change (len [34]) with 1; lia).
  unfold parse_text. cbv zeta.
  replace ((len pre <? 0) || (len pre + len a - len pre - 2 <? 0)) with false by lia.
  assert (G0 : get (pre ++ a ++ post) (len pre) = Ok 34) by (unfold a; cbn [app]; apply get_head).
  rewrite G0. cbn [bind]. change (34 =? 34) with true. cbn [negb].
  assert (G1 : get (pre ++ a ++ post) (len pre + len a - 1) = Ok 34).
  { replace (len pre + len a - 1) with (len pre + (len a - 1)) by lia. rewrite get_mid by lia. f_equal.
    rewrite La. replace (len v + 2 - 1) with (1 + len v) by lia. unfold a.
    change (34 :: v ++ [34]) with ([34] ++ v ++ [34]). rewrite at_app2 by (change (len [34]) with 1; lia).
    change (len [34]) with 1. rewrite at_app2 by lia. replace (1 + len v - 1 - len v) with 0 by lia. reflexivity. }
  rewrite G1. cbn [bind]. change (34 =? 34) with true. cbn [negb].
  assert (Gk : forall k, 1 <= k -> k <= len v -> get (pre ++ a ++ post) (len pre + k) = Ok (at_ v (k - 1))).
  { intros k K1 K2. rewrite get_mid by lia. f_equal. unfold a.
    change (34 :: v ++ [34]) with ([34] ++ v ++ [34]). rewrite at_app2 by (change (len [34]) with 1; lia).
    change (len [34]) with 1. rewrite at_app1 by lia. reflexivity. }
  replace (len pre + len a - len pre - 2) with (len v) by lia.
  assert (R : get_range (pre ++ a ++ post) (len pre + 1) (len pre + 1 + len v) = Ok v).
  { replace (len pre + 1 + len v) with (len pre + (1 + len v)) by lia.
    rewrite (get_range_mid pre a post 1 (1 + len v)) by lia. f_equal. unfold a.
    change (34 :: v ++ [34]) with ([34] ++ v ++ [34]). rewrite slice_app_r by (change (len [34]) with 1; lia).
    change (len [34]) with 1. rewrite slice_app_l by lia. replace (1 - 1) with 0 by lia. replace (1 + len v - 1) with (len v) by lia.
    apply slice_full. }
  destruct t as [|c0 t0].
  - change (len v =? 3) with true. cbv iota.
    rewrite (Gk 1) by (change (len v) with 3; lia). cbn [bind]. change (negb (at_ v (1 - 1) =? 60)) with false. cbv iota.
    rewrite (Gk 2) by (change (len v) with 3; lia). cbn [bind]. change (negb (at_ v (2 - 1) =? 63)) with false. cbv iota.
    rewrite (Gk 3) by (change (len v) with 3; lia). cbn [bind]. change (at_ v (3 - 1) =? 62) with true. reflexivity.
  - assert (F : forall b : outcome bool, b = Ok false ->
      (unknown <- b ;; if unknown : bool then Ok [] else t <- get_range (pre ++ a ++ post) (len pre + 1) (len pre + 1 + len v) ;; Ok (cstr t)) = Ok (c0 :: t0)).
    { intros b ->. cbn [bind]. rewrite R. cbn [bind]. f_equal. apply cstr_id. eapply Forall_impl; [|exact Ht].
      unfold sap_char. intros; lia. }
    apply F. destruct (Z.eqb_spec (len v) 3) as [E3|E3]; [|reflexivity].
    rewrite (Gk 1) by lia. cbn [bind]. destruct (Z.eqb_spec (at_ v (1 - 1)) 60) as [A1|]; [|reflexivity]. cbn [negb].
    rewrite (Gk 2) by lia. cbn [bind]. destruct (Z.eqb_spec (at_ v (2 - 1)) 63) as [A2|]; [|reflexivity]. cbn [negb].
    rewrite (Gk 3) by lia. cbn [bind]. destruct (Z.eqb_spec (at_ v (3 - 1)) 62) as [A3|]; [|reflexivity].
    exfalso. apply Hu. subst v. cbv iota in E3, A1, A2, A3. unfold len in E3. cbn [length] in E3.
    destruct t0 as [|c1 [|c2 [|]]]; cbn [length] in E3; try lia.
    change (c0 = 60) in A1. change (c1 = 63) in A2. change (c2 = 62) in A3. subst; reflexivity.
Qed.

Lemma sap_arg_char c : sap_char c -> arg_char c.
Proof. unfold sap_char, arg_char, is_valid_char. lia. Qed.

Lemma arg_chars s : forallb (fun c => (32 <=? c) && is_valid_char c) s = true -> Forall arg_char s.
Proof.
  intros H. apply Forall_forall. intros c Hc. rewrite forallb_forall in H. specialize (H c Hc).
  split; [intros _; destruct (is_valid_char c); lia|]. intros ->. discriminate.
Qed.

Lemma text_line_ok tag t : (exists c r, tag = c :: r /\ c <> 255) -> Forall (fun c => 32 < c) tag -> Forall sap_char t ->
  line_ok (text_line tag t).
Proof.
  intros H1 H2 H3. unfold line_ok, text_line. cbn [h_tag h_arg]. split; [exact H1|]. split; [exact H2|]. split; [|split].
  - assert (Q : arg_char 34) by (unfold arg_char, is_valid_char; lia).
    constructor; [exact Q|]. apply Forall_app. split; [|constructor; [exact Q|constructor]].
    destruct t; [apply arg_chars; reflexivity|]. eapply Forall_impl; [|exact H3]. apply sap_arg_char.
  - eexists (34 :: _), 34. split; [reflexivity|lia].
  - eexists 34, _. split; [reflexivity|lia].
Qed.

Ltac tag_ok := first [ eexists _, _; split; [reflexivity|discriminate] | repeat constructor ].

Lemma reads_author s t : Forall sap_char t -> t <> unknown_text ->
  reads_all [text_line (str "AUTHOR") t] s (ss_upd (set_author t) s).
Proof.
  intros H1 H2. eapply ra_cons; [apply text_line_ok; [tag_ok|tag_ok|exact H1]| |apply ra_nil].
  intros pre post. cbn [h_tag text_line]. pick_tag. rewrite parse_text_line by assumption. reflexivity.
Qed.

Lemma reads_name s t : Forall sap_char t -> t <> unknown_text ->
  reads_all [text_line (str "NAME") t] s (ss_upd (set_title t) s).
Proof.
  intros H1 H2. eapply ra_cons; [apply text_line_ok; [tag_ok|tag_ok|exact H1]| |apply ra_nil].
  intros pre post. cbn [h_tag text_line]. pick_tag. rewrite parse_text_line by assumption. reflexivity.
Qed.

Lemma reads_date s t : Forall sap_char t -> t <> unknown_text ->
  reads_all [text_line (str "DATE") t] s (ss_upd (set_date t) s).
Proof.
  intros H1 H2. eapply ra_cons; [apply text_line_ok; [tag_ok|tag_ok|exact H1]| |apply ra_nil].
  intros pre post. cbn [h_tag text_line]. pick_tag. rewrite parse_text_line by assumption. reflexivity.
Qed.

(* numbers *)
Lemma slice_prefix pre a post : slice (pre ++ a ++ post) (len pre) (len pre + len a) = a.
Proof.
  pose proof (len_nonneg pre). pose proof (len_nonneg a).
  rewrite slice_app_r by lia. rewrite slice_app_l by lia. replace (len pre - len pre) with 0 by lia.
  replace (len pre + len a - len pre) with (len a) by lia. apply slice_full.
Qed.

Lemma parse_dec_line pre v post min max : 0 <= min <= v -> v <= max -> max < 10 ^ 11 ->
  parse_dec (pre ++ dec_digits 11 v ++ post) (len pre) (len pre + len (dec_digits 11 v)) min max = Ok v.
Proof.
  intros H1 H2 H3. pose proof (len_nonneg pre). pose proof (len_nonneg post).
  destruct (dec_digits_spec 11 v) as [F V]; [change (Z.of_nat 11) with 11; lia|].
  assert (0 < len (dec_digits 11 v)).
  { pose proof (dec_digits_nonempty 10 v) as N. destruct (dec_digits 11 v); [contradiction|]. rewrite len_cons.
    pose proof (len_nonneg l). lia. }
  apply parse_dec_spec; [lia|rewrite !len_app; lia|lia|]. rewrite slice_prefix. auto with zarith.
Qed.

Lemma parse_hex_line pre v post : 0 <= v <= 65535 ->
  parse_hex (pre ++ hex4 v ++ post) (len pre) (len pre + len (hex4 v)) = Ok v.
Proof.
  intros H. pose proof (len_nonneg pre). pose proof (len_nonneg post). change (len (hex4 v)) with 4.
  apply parse_hex_spec; [lia|rewrite !len_app; change (len (hex4 v)) with 4; lia|].
  change 4 with (len (hex4 v)). rewrite slice_prefix. split; [apply hex4_number; lia|lia].
Qed.

Lemma dec_line_ok tag v : (exists c r, tag = c :: r /\ c <> 255) -> Forall (fun c => 32 < c) tag -> 0 <= v < 10 ^ 11 ->
  line_ok (dec_line tag v).
Proof.
  intros H1 H2 H3. unfold line_ok, dec_line. cbn [h_tag h_arg]. split; [exact H1|]. split; [exact H2|].
  destruct (dec_digits_spec 11 v) as [F V]; [exact H3|].
  assert (N : dec_digits 11 v <> []) by apply dec_digits_nonempty.
  split; [|split].
  - eapply Forall_impl; [|exact F]. unfold dec_char, arg_char, is_valid_char. intros; lia.
  - destruct (exists_last N) as (a & c & E). exists a, c. split; [exact E|]. rewrite E in F. apply Forall_app in F.
    destruct F as [_ F]. inversion F; unfold dec_char in *; lia.
  - destruct (dec_digits 11 v) as [|c r]; [contradiction|]. exists c, r. split; [reflexivity|].
    inversion F; unfold dec_char in *; lia.
Qed.

Lemma hex_line_ok tag v : (exists c r, tag = c :: r /\ c <> 255) -> Forall (fun c => 32 < c) tag ->
  line_ok (mkLine tag (Some (hex4 v))).
Proof.
  intros H1 H2. unfold line_ok. cbn [h_tag h_arg]. split; [exact H1|]. split; [exact H2|].
  assert (K : forall x, 48 <= hex_char_of (x mod 16) <= 70).
  { intros x. unfold hex_char_of. destruct (Z.ltb_spec (x mod 16) 10); lia. }
  split; [|split].
  - unfold hex4. repeat (constructor; [match goal with |- arg_char (hex_char_of (?x mod 16)) => specialize (K x) end;
      unfold arg_char, is_valid_char; lia|]). constructor.
  - unfold hex4. eexists [_; _; _], _. split; [reflexivity|]. specialize (K v). lia.
  - eexists _, _. split; [reflexivity|]. match goal with |- 32 < hex_char_of (?x mod 16) => specialize (K x) end. lia.
Qed.

Lemma eta_state s : mkSapState (ss_info s) (ss_type s) (ss_durIdx s) = s.
Proof. now destruct s. Qed.

Ltac same_field := unfold ss_upd; match goal with s : sap_state |- _ => destruct s as [[] ? ?] end; sap_fields; cbn [ss_info i_songs i_defsong i_channels i_ntsc i_fastplay i_music i_init i_player i_covox] in *; subst; reflexivity.

Lemma reads_all_same l s s' s'' : reads_all l s s' -> s' = s'' -> reads_all l s s''.
Proof. now intros H <-. Qed.

Lemma reads_songs s v w : i_songs (ss_info s) = 1 -> i_defsong (ss_info s) = 0 -> 1 <= v <= 32 -> 0 <= w < v ->
  reads_all (if 1 <? v then [dec_line (str "SONGS") v] ++ (if 0 <? w then [dec_line (str "DEFSONG") w] else []) else [])
    s (ss_upd (fun i => set_defsong w (set_songs v i)) s).
Proof.
  intros E1 E2 Hv Hw. destruct (Z.ltb_spec 1 v) as [C|C].
  - eapply reads_all_app.
    + eapply ra_cons; [apply dec_line_ok; [tag_ok|tag_ok|lia]| |apply ra_nil].
      intros pre post. cbn [h_tag dec_line]. pick_tag. rewrite parse_dec_line by lia. reflexivity.
    + destruct (Z.ltb_spec 0 w) as [D|D].
      * eapply ra_cons; [apply dec_line_ok; [tag_ok|tag_ok|lia]| |].
        { intros pre post. cbn [h_tag dec_line]. pick_tag. rewrite parse_dec_line by lia. reflexivity. }
        apply ra_nil.
      * eapply reads_all_same; [apply ra_nil|]. assert (w = 0) by lia. same_field.
  - eapply reads_all_same; [apply ra_nil|]. assert (w = 0) by lia. assert (v = 1) by lia. same_field.
Qed.

Lemma reads_stereo s v : i_channels (ss_info s) = 1 -> 1 <= v <= 2 ->
  reads_all (if 1 <? v then [mkLine (str "STEREO") None] else []) s (ss_upd (set_channels v) s).
Proof.
  intros E Hv. destruct (Z.ltb_spec 1 v) as [C|C].
  - replace v with 2 by lia. eapply ra_cons; [|intros module e; cbn [h_tag]; pick_tag; reflexivity|apply ra_nil].
    split; [tag_ok|]. split; [tag_ok|exact I].
  - eapply reads_all_same; [apply ra_nil|]. assert (v = 1) by lia. same_field.
Qed.

Lemma reads_ntsc s (v : bool) : i_ntsc (ss_info s) = false ->
  reads_all (if v then [mkLine (str "NTSC") None] else []) s (ss_upd (set_ntsc v) s).
Proof.
  intros E. destruct v.
  - eapply ra_cons; [|intros module e; cbn [h_tag]; pick_tag; reflexivity|apply ra_nil].
    split; [tag_ok|]. split; [tag_ok|exact I].
  - eapply reads_all_same; [apply ra_nil|]. same_field.
Qed.

Lemma reads_type s t : 65 <= t <= 90 ->
  reads_all [mkLine (str "TYPE") (Some [t])] s (mkSapState (ss_info s) t (ss_durIdx s)).
Proof.
  intros H. eapply ra_cons; [| |apply ra_nil].
  - split; [tag_ok|]. split; [tag_ok|]. cbn [h_arg]. split; [|split].
    + constructor; [|constructor]. unfold arg_char, is_valid_char. lia.
    + exists [], t. split; [reflexivity|lia].
    + exists t, []. split; [reflexivity|lia].
  - intros pre post. cbn [h_tag]. pick_tag. pose proof (len_nonneg pre).
    destruct (Z.ltb_spec (len pre) 0); [lia|]. change ([t] ++ post) with (t :: post). rewrite get_head. reflexivity.
Qed.

Lemma reads_fastplay s (b : bool) v : i_fastplay (ss_info s) = -1 -> 1 <= v <= 32767 ->
  reads_all (if b then [dec_line (str "FASTPLAY") v] else []) s (ss_upd (set_fastplay (if b then v else -1)) s).
Proof.
  intros E Hv. destruct b.
  - eapply ra_cons; [apply dec_line_ok; [tag_ok|tag_ok|lia]| |apply ra_nil].
    intros pre post. cbn [h_tag dec_line]. pick_tag. rewrite parse_dec_line by lia. reflexivity.
  - eapply reads_all_same; [apply ra_nil|]. same_field.
Qed.

Lemma reads_music s (b : bool) v : i_music (ss_info s) = -1 -> -1 <= v <= 65535 ->
  reads_all (if b then hex_lines (str "MUSIC") v else []) s (ss_upd (set_music (if b then v else -1)) s).
Proof.
  intros E Hv. unfold hex_lines. destruct b; [destruct (Z.ltb_spec v 0)|].
  - eapply reads_all_same; [apply ra_nil|]. assert (v = -1) by lia. same_field.
  - eapply ra_cons; [apply hex_line_ok; tag_ok| |apply ra_nil].
    intros pre post. cbn [h_tag]. pick_tag. rewrite parse_hex_line by lia. reflexivity.
  - eapply reads_all_same; [apply ra_nil|]. same_field.
Qed.

Lemma reads_init s v : i_init (ss_info s) = -1 -> -1 <= v <= 65535 ->
  reads_all (hex_lines (str "INIT") v) s (ss_upd (set_init v) s).
Proof.
  intros E Hv. unfold hex_lines. destruct (Z.ltb_spec v 0).
  - eapply reads_all_same; [apply ra_nil|]. assert (v = -1) by lia. same_field.
  - eapply ra_cons; [apply hex_line_ok; tag_ok| |apply ra_nil].
    intros pre post. cbn [h_tag]. pick_tag. rewrite parse_hex_line by lia. reflexivity.
Qed.

Lemma reads_player s v : i_player (ss_info s) = -1 -> -1 <= v <= 65535 ->
  reads_all (hex_lines (str "PLAYER") v) s (ss_upd (set_player v) s).
Proof.
  intros E Hv. unfold hex_lines. destruct (Z.ltb_spec v 0).
  - eapply reads_all_same; [apply ra_nil|]. assert (v = -1) by lia. same_field.
  - eapply ra_cons; [apply hex_line_ok; tag_ok| |apply ra_nil].
    intros pre post. cbn [h_tag]. pick_tag. rewrite parse_hex_line by lia. reflexivity.
Qed.

Lemma reads_covox s v : i_covox (ss_info s) = -1 -> v = -1 \/ (v = 54784 /\ i_channels (ss_info s) = 2) ->
  reads_all (hex_lines (str "COVOX") v) s (ss_upd (set_covox v) s).
Proof.
  intros E Hv. unfold hex_lines. destruct (Z.ltb_spec v 0).
  - eapply reads_all_same; [apply ra_nil|]. assert (v = -1) by lia. same_field.
  - destruct Hv as [->|[-> Ec]]; [lia|]. eapply ra_cons; [apply hex_line_ok; tag_ok| |].
    { intros pre post. cbn [h_tag]. pick_tag. rewrite parse_hex_line by lia. cbn [bind].
      change (negb (54784 =? 54784)) with false. cbv iota. reflexivity. }
    eapply reads_all_same; [apply ra_nil|]. same_field.
Qed.

(* TIME *)
Definition time_char (c : Z) : Prop := 46 <= c <= 58.

Lemma duration_chars d : 0 <= d < 6000000 -> Forall time_char (duration_to_string d) /\ 5 <= len (duration_to_string d).
Proof.
  intros H. unfold duration_to_string, seconds_to_string.
  replace ((d <? 0) || (6000000 <=? d)) with false by lia. cbv zeta. unfold two_digits.
  assert (Q : forall v, 0 <= v <= 99 -> time_char (u8 (48 + Z.quot v 10)) /\ time_char (u8 (48 + Z.rem v 10))).
  { intros v Hv. unfold time_char. rewrite !u8_small by lia. lia. }
  assert (Q1 : forall v, 0 <= v <= 9 -> time_char (u8 (48 + v))).
  { intros v Hv. unfold time_char. rewrite !u8_small by lia. lia. }
  pose proof (Q (Z.quot (Z.quot d 1000) 60) ltac:(lia)) as [A1 A2].
  pose proof (Q (Z.rem (Z.quot d 1000) 60) ltac:(lia)) as [A3 A4].
  pose proof (Q (Z.quot (Z.rem d 1000) 10) ltac:(lia)) as [A5 A6].
  pose proof (Q1 (Z.rem (Z.rem d 1000) 10) ltac:(lia)) as A7.
  assert (C1 : time_char 58) by (unfold time_char; lia). assert (C2 : time_char 46) by (unfold time_char; lia).
  destruct (Z.rem d 1000 =? 0); [|destruct (Z.rem (Z.rem d 1000) 10 =? 0)].
  all: split; [unfold app; repeat (apply Forall_cons; [assumption|]); apply Forall_nil
              |unfold app; repeat rewrite len_cons; rewrite len_nil; lia].
Qed.

Lemma has_string_at_mid pre s post : has_string_at (pre ++ s ++ post) (len pre) s = Ok true.
Proof.
  revert pre. induction s as [|c s IH]; intros pre; cbn [has_string_at app]; [reflexivity|].
  rewrite get_head. cbn [bind]. rewrite Z.eqb_refl. cbn [negb].
  specialize (IH (pre ++ [c])). rewrite <- app_assoc in IH. cbn [app] in IH. now rewrite len_snoc in IH.
Qed.

Lemma set_nth_app {A} (l : list A) x r v : set_nth (l ++ x :: r) (len l) v = Ok (l ++ v :: r).
Proof.
  unfold set_nth. pose proof (len_nonneg l). pose proof (len_nonneg r).
  replace ((len l <? 0) || (len (l ++ x :: r) <=? len l)) with false by (rewrite len_app, len_cons; lia).
  f_equal. unfold len. rewrite Nat2Z.id. induction l as [|y l IH]; cbn [app length upd]; [reflexivity|]. f_equal.
  apply IH; apply len_nonneg.
Qed.

Lemma time_line_ok d lp : 0 <= d < 6000000 -> line_ok (time_line d lp).
Proof.
  intros H. destruct (duration_chars d H) as [F L]. unfold line_ok, time_line. cbn [h_tag h_arg].
  split; [tag_ok|]. split; [tag_ok|].
  assert (F' : Forall arg_char (duration_to_string d)).
  { eapply Forall_impl; [|exact F]. unfold time_char, arg_char, is_valid_char. intros; lia. }
  assert (N : duration_to_string d <> []) by (intros E; rewrite E in L; change (len (@nil Z)) with 0 in L; lia).
  split; [|split].
  - apply Forall_app. split; [exact F'|]. destruct lp; [apply arg_chars; reflexivity|constructor].
  - destruct lp.
    + exists (duration_to_string d ++ str " LOO"), 80. split; [rewrite <- app_assoc; reflexivity|lia].
    + rewrite app_nil_r. destruct (exists_last N) as (a & c & E). exists a, c. split; [exact E|].
      rewrite E in F. apply Forall_app in F. destruct F as [_ F]. inversion F; unfold time_char in *; lia.
  - destruct (duration_to_string d) as [|c r]; [contradiction|]. eexists c, _. split; [reflexivity|].
    inversion F; unfold time_char in *; lia.
Qed.

Lemma reads_time d lp s D L x y D' L' : 0 <= d < 6000000 ->
  ss_durIdx s = len D -> ss_durIdx s = len L -> ss_durIdx s < 32 -> lp = true \/ y = false ->
  i_durations (ss_info s) = D ++ x :: D' -> i_loops (ss_info s) = L ++ y :: L' ->
  reads (time_line d lp) s
    (mkSapState (set_durations (D ++ d :: D') (set_loops (L ++ lp :: L') (ss_info s))) (ss_type s) (ss_durIdx s + 1)).
Proof.
  intros H E1 E2 E3 Hy ED EL. destruct (duration_chars d H) as [F Ln]. intros pre post. cbn [h_tag time_line]. pick_tag.
  set (t := duration_to_string d) in *. pose proof (len_nonneg pre). pose proof (len_nonneg post).
  unfold sap_time. destruct (Z.leb_spec 32 (ss_durIdx s)); [lia|]. destruct (Z.ltb_spec (len pre) 0); [lia|].
  assert (Ct : cstr t = t).
  { apply cstr_id. eapply Forall_impl; [|exact F]. unfold time_char. intros; lia. }
  assert (Pt : parse_duration t = Ok d) by (apply parse_duration_to_string; exact H).
  destruct lp.
  - rewrite len_app. change (len (str " LOOP")) with 5. replace (5 <? len pre + (len t + 5) - len pre) with true by lia.
    assert (HS : has_string_at (pre ++ (t ++ str " LOOP") ++ post) (len pre + (len t + 5) - 5) (str " LOOP") = Ok true).
    { replace (len pre + (len t + 5) - 5) with (len (pre ++ t)) by (rewrite len_app; lia).
      replace (pre ++ (t ++ str " LOOP") ++ post) with ((pre ++ t) ++ str " LOOP" ++ post) by (rewrite <- !app_assoc; reflexivity).
      apply has_string_at_mid. }
    rewrite HS. cbn [bind]. rewrite EL, E2, set_nth_app. cbn [bind].
    replace (len pre + (len t + 5) - 5) with (len pre + len t) by lia.
    replace (pre ++ (t ++ str " LOOP") ++ post) with (pre ++ t ++ (str " LOOP" ++ post)) by (rewrite <- !app_assoc; reflexivity).
    rewrite get_range_prefix. cbn [bind]. rewrite Ct, Pt. cbn [bind set_loops i_durations].
    rewrite ED. rewrite <- E2, E1, set_nth_app. reflexivity.
  - destruct Hy as [Hy|Hy]; [discriminate|]. subst y. rewrite app_nil_r.
    assert (B : (if 5 <? len pre + len t - len pre then has_string_at (pre ++ t ++ post) (len pre + len t - 5) (str " LOOP") else Ok false) = Ok false).
    { destruct (Z.ltb_spec 5 (len pre + len t - len pre)); [|reflexivity].
      change (str " LOOP") with (32 :: str "LOOP"). cbn [has_string_at].
      replace (len pre + len t - 5) with (len pre + (len t - 5)) by lia. rewrite get_mid by lia. cbn [bind].
      assert (time_char (at_ t (len t - 5))).
      { unfold at_. eapply Forall_forall; [exact F|]. apply nth_In. unfold len in *. lia. }
      unfold time_char in *. destruct (Z.eqb_spec 32 (at_ t (len t - 5))); [lia|]. reflexivity. }
    rewrite B. cbn [bind]. rewrite get_range_prefix. cbn [bind]. rewrite Ct, Pt. cbn [bind].
    rewrite ED, E1, set_nth_app. cbn [bind].
    unfold set_durations, set_loops. cbn [i_filename i_author i_title i_date i_channels i_songs i_defsong i_durations i_loops i_ntsc i_type i_fastplay i_music i_init i_player i_covox i_headerLen i_songPos].
    rewrite EL. reflexivity.
Qed.

Lemma reads_times n durs loops D L r s :
  (n <= length durs)%nat -> (n <= length loops)%nat -> (n <= r)%nat ->
  ss_durIdx s = len D -> ss_durIdx s = len L -> ss_durIdx s + Z.of_nat r = 32 ->
  i_durations (ss_info s) = D ++ repeat (-1) r -> i_loops (ss_info s) = L ++ repeat false r ->
  Forall (fun d => d < 6000000) (firstn (known_prefix n durs) durs) ->
  reads_all (time_lines n durs loops) s
    (mkSapState (set_durations (D ++ firstn (known_prefix n durs) durs ++ repeat (-1) (r - known_prefix n durs))
                (set_loops (L ++ firstn (known_prefix n durs) loops ++ repeat false (r - known_prefix n durs)) (ss_info s)))
       (ss_type s) (ss_durIdx s + Z.of_nat (known_prefix n durs))).
Proof.
  revert durs loops D L r s. induction n as [|n IH]; intros durs loops D L r s Hd Hl Hr E1 E2 E3 ED EL HF.
  { cbn [time_lines known_prefix firstn app]. eapply reads_all_same; [apply ra_nil|].
    rewrite Nat.sub_0_r, <- ED, <- EL. destruct s as [[] ? ?]. sap_fields. unfold set_durations, set_loops. sap_fields. f_equal. lia. }
  destruct durs as [|d durs]; [cbn [length] in Hd; lia|]. destruct loops as [|lp loops]; [cbn [length] in Hl; lia|].
  destruct r as [|r]; [lia|]. cbn [time_lines known_prefix] in *.
  destruct (Z.ltb_spec d 0) as [C|C].
  - destruct (Z.leb_spec 0 d); [lia|]. cbn [firstn app]. eapply reads_all_same; [apply ra_nil|].
    rewrite Nat.sub_0_r, <- ED, <- EL. destruct s as [[] ? ?]. sap_fields. unfold set_durations, set_loops. sap_fields. f_equal. lia.
  - destruct (Z.leb_spec 0 d); [|lia]. cbn [firstn repeat] in *. inversion HF as [|? ? Hd0 HF']; subst.
    eapply ra_cons; [apply time_line_ok; lia| |].
    + apply (reads_time d lp s D L (-1) false (repeat (-1) r) (repeat false r)); try assumption; [lia|lia|auto].
    + eapply reads_all_same.
      * apply (IH durs loops (D ++ [d]) (L ++ [lp]) r); cbn [ss_durIdx ss_info length] in *; try lia.
        -- rewrite len_snoc. lia.
        -- rewrite len_snoc. lia.
        -- unfold set_durations. cbn [i_durations]. rewrite <- app_assoc. reflexivity.
        -- unfold set_durations, set_loops. cbn [i_loops]. rewrite <- app_assoc. reflexivity.
        -- exact HF'.
      * cbn [ss_type ss_durIdx ss_info]. rewrite Nat.sub_succ. rewrite <- !app_assoc. cbn [app].
        replace (ss_durIdx s + 1 + Z.of_nat (known_prefix n durs)) with (ss_durIdx s + Z.of_nat (S (known_prefix n durs))) by lia.
        destruct s as [[] ? ?]. reflexivity.
Qed.

(* ---- the whole file ---- *)
Definition type_letter (inf : info) : Z := api_get_type_letter inf.

Lemma known_prefix_le n l : (known_prefix n l <= n)%nat.
Proof. revert l. induction n as [|n IH]; intros [|d l]; cbn [known_prefix]; try lia. destruct (0 <=? d); [|lia]. specialize (IH l). lia. Qed.

Lemma reads_sap_lines module inf self : sap_savable module inf ->
  exists s, reads_all (sap_lines inf (type_letter inf) (i_init inf) (i_player inf))
     (mkSapState (set_fastplay (-1) (load_defaults self)) 0 0) s
  /\ ss_type s = type_letter inf
  /\ i_author (ss_info s) = i_author inf /\ i_title (ss_info s) = i_title inf /\ i_date (ss_info s) = i_date inf
  /\ i_songs (ss_info s) = i_songs inf /\ i_defsong (ss_info s) = i_defsong inf
  /\ i_channels (ss_info s) = i_channels inf /\ i_ntsc (ss_info s) = i_ntsc inf
  /\ i_fastplay (ss_info s) = (if fastplay_written (type_letter inf) (i_ntsc inf) (i_fastplay inf) then i_fastplay inf else -1)
  /\ i_music (ss_info s) = (if type_letter inf =? 67 then i_music inf else -1)
  /\ i_init (ss_info s) = i_init inf /\ i_player (ss_info s) = i_player inf /\ i_covox (ss_info s) = i_covox inf
  /\ i_durations (ss_info s) = first_of_32 (known_songs inf) (-1) (i_durations inf)
  /\ i_loops (ss_info s) = first_of_32 (known_songs inf) false (i_loops inf).
Proof.
  intros [Hs Hds Hf Hc Hcv (Hm & Hi & Hp) Ht (Hd1 & Hd2) Hl (Ha1 & Ha2) (Ht1 & Ht2) (Hda1 & Hda2) Hh]. unfold addr_or_none in *.
  eexists. split.
  - unfold sap_lines.
    eapply reads_all_app; [apply reads_author; assumption|].
    eapply reads_all_app; [apply reads_name; assumption|].
    eapply reads_all_app; [apply reads_date; assumption|].
    eapply reads_all_app; [apply reads_songs; [reflexivity|reflexivity|lia|lia]|].
    eapply reads_all_app; [apply reads_stereo; [reflexivity|lia]|].
    eapply reads_all_app; [apply reads_ntsc; reflexivity|].
    eapply reads_all_app; [apply reads_type|].
    { unfold type_letter, api_get_type_letter. destruct (i_type inf); try contradiction; lia. }
    eapply reads_all_app; [apply reads_fastplay; [reflexivity|lia]|].
    eapply reads_all_app; [apply reads_music; [reflexivity|lia]|].
    eapply reads_all_app; [apply reads_init; [reflexivity|lia]|].
    eapply reads_all_app; [apply reads_player; [reflexivity|lia]|].
    eapply reads_all_app; [apply reads_covox; [reflexivity|exact Hcv]|].
    apply (reads_times _ _ _ [] [] 32).
    + unfold len in Hd1. lia.
    + unfold len in Hl. lia.
    + lia.
    + reflexivity.
    + reflexivity.
    + reflexivity.
    + reflexivity.
    + reflexivity.
    + exact Hd2.
  - unfold load_defaults. repeat split.
Qed.

Lemma sap_lines_long inf type init player : 29 <= len (lines_text (sap_lines inf type init player)).
Proof.
  unfold sap_lines. rewrite !lines_text_app, !lines_text_one, !len_app.
  assert (K : forall tag t, len tag + 5 <= len (line_text (text_line tag t))).
  { intros tag t. unfold line_text, text_line. cbn [h_tag h_arg]. rewrite len_app, len_app, len_cons, len_cons, len_app.
    change (len [34]) with 1. change (len [13; 10]) with 2.
    match goal with |- context [len (match t with [] => ?a | _ :: _ => _ end)] =>
      pose proof (len_nonneg (match t with [] => a | _ :: _ => t end)) end. lia. }
  pose proof (K (str "AUTHOR") (i_author inf)). pose proof (K (str "NAME") (i_title inf)). pose proof (K (str "DATE") (i_date inf)).
  change (len (str "AUTHOR")) with 6 in *. change (len (str "NAME")) with 4 in *. change (len (str "DATE")) with 4 in *.
  repeat match goal with |- context [len (lines_text ?x)] => pose proof (len_nonneg (lines_text x)); generalize dependent (len (lines_text x)); intros end.
  match goal with |- context [len (line_text (mkLine ?a ?b))] => pose proof (len_nonneg (line_text (mkLine a b))) end. lia.
Qed.

Lemma default_fastplay d x :
  (if i_fastplay x <? 0 then set_fastplay d x else x) = set_fastplay (if i_fastplay x <? 0 then d else i_fastplay x) x.
Proof. destruct (i_fastplay x <? 0); [reflexivity|]. now destruct x. Qed.

Lemma set_fastplay_twice a b x : set_fastplay a (set_fastplay b x) = set_fastplay a x.
Proof. reflexivity. Qed.

Lemma parse_sap_written module inf self payload : sap_savable module inf ->
  7 <= len payload -> at_ payload 0 = 255 -> at_ payload 1 = 255 ->
  let hdr := str "SAP" ++ [13; 10] ++ lines_text (sap_lines inf (type_letter inf) (i_init inf) (i_player inf)) in
  exists inf', parse_sap (load_defaults self) (hdr ++ payload) = Ok inf' /\ sap_same inf inf' /\ i_headerLen inf' = len hdr.
Proof.
  intros Hsv Hp H0 H1 hdr. destruct (reads_sap_lines module inf self Hsv) as (s & Hr & Et & E).
  destruct E as (E1 & E2 & E3 & E4 & E5 & E6 & E7 & E8 & E9 & E10 & E11 & E12 & E13 & E14).
  set (lines := sap_lines inf (type_letter inf) (i_init inf) (i_player inf)) in *.
  pose proof (sap_lines_long inf (type_letter inf) (i_init inf) (i_player inf)) as Ll. fold lines in Ll.
  assert (Lh : len hdr = 5 + len (lines_text lines)).
  { unfold hdr. rewrite !len_app. change (len (str "SAP")) with 3. change (len [13; 10]) with 2. lia. }
  assert (Em : hdr ++ payload = (str "SAP" ++ [13; 10]) ++ lines_text lines ++ payload).
  { unfold hdr. rewrite <- !app_assoc. reflexivity. }
  unfold parse_sap, validate_sap.
  destruct (Z.leb_spec 30 (len (hdr ++ payload))) as [L|L]; [|rewrite len_app in L; lia].
  assert (V : has_string_at (hdr ++ payload) 0 (str "SAP" ++ [13; 10]) = Ok true).
  { rewrite Em. apply (has_string_at_mid []). }
  rewrite V. cbn [bind negb].
  assert (Lo : sap_loop (length (hdr ++ payload)) (hdr ++ payload) 5 (mkSapState (set_fastplay (-1) (load_defaults self)) 0 0)
     = Ok (len hdr, s)).
  { assert (Hlen : (length lines <= length (hdr ++ payload))%nat).
    { rewrite app_length. assert (length lines <= length (lines_text lines))%nat.
      { unfold lines_text. clear. induction lines as [|l r IH]; cbn [map concat length]; [lia|]. rewrite app_length.
        unfold line_text at 1. rewrite !app_length. cbn [length]. lia. }
      unfold len in *. lia. }
    revert Hlen. generalize (length (hdr ++ payload)). intros fuel Hfuel. rewrite Em.
    pose proof (sap_loop_lines lines fuel (str "SAP" ++ [13; 10]) payload _ s Hr Hp H0 Hfuel) as Q.
    unfold lines_text. change (len (str "SAP" ++ [13; 10])) with 5 in Q. rewrite Q. rewrite Lh. reflexivity. }
  rewrite Lo. cbn [bind]. unfold sap_finish.
  destruct Hsv as [Hs Hds Hf Hc Hcv (Hm & Hi & Hpl) Ht (Hd1 & Hd2) Hl (Ha1 & Ha2) (Ht1 & Ht2) (Hda1 & Hda2) Hh]. unfold addr_or_none in *.
  rewrite E4, E5. destruct (Z.leb_spec (i_songs inf) (i_defsong inf)); [lia|].
  assert (G : forall p, p <= 1 -> 0 <= p -> get (hdr ++ payload) (len hdr + p) = Ok (at_ payload p)).
  { intros p P1 P2. pose proof (get_mid hdr payload [] p ltac:(lia)) as Q. rewrite app_nil_r in Q. exact Q. }
  rewrite (G 1) by lia. rewrite H1.
  rewrite Et, E10, E11, E9. unfold type_letter, api_get_type_letter in *.
  assert (Fin : forall ty fp, i_type inf = ty -> fp = i_fastplay inf ->
     (ty = SAP_C -> i_music (ss_info s) = i_music inf) ->
     sap_same inf (set_headerLen (len hdr) (set_fastplay fp (set_type ty (ss_info s))))).
  { intros ty fp <- -> Hmus. split; sap_fields; try assumption; reflexivity. }
  destruct (i_type inf) eqn:Ety; try contradiction.
  - change (66 =? 66) with true. cbv iota. destruct (Z.ltb_spec (i_player inf) 0); [lia|]. destruct (Z.ltb_spec (i_init inf) 0); [lia|].
    cbn [bind]. change (negb (255 =? 255)) with false. cbv iota zeta. eexists. split; [reflexivity|]. split; [|destruct (_ <? 0); reflexivity].
    rewrite default_fastplay. apply Fin; [reflexivity| |discriminate]. sap_fields. rewrite E8, E7.
    unfold fastplay_written. change (66 =? 83) with false. cbv iota.
    destruct (Z.eqb_spec (i_fastplay inf) 312), (i_ntsc inf); cbn [negb orb]; match goal with |- context [?a <? 0] => destruct (Z.ltb_spec a 0) end; lia.
  - change (67 =? 66) with false. change (67 =? 67) with true. cbv iota. destruct (Z.ltb_spec (i_player inf) 0); [lia|]. destruct (Z.ltb_spec (i_music inf) 0); [lia|].
    cbn [bind]. change (negb (255 =? 255)) with false. cbv iota zeta. eexists. split; [reflexivity|]. split; [|destruct (_ <? 0); reflexivity].
    rewrite default_fastplay. apply Fin; [reflexivity| |intros _; exact E9]. sap_fields. rewrite E8, E7.
    unfold fastplay_written. change (67 =? 83) with false. cbv iota.
    destruct (Z.eqb_spec (i_fastplay inf) 312), (i_ntsc inf); cbn [negb orb]; match goal with |- context [?a <? 0] => destruct (Z.ltb_spec a 0) end; lia.
  - change (68 =? 66) with false. change (68 =? 67) with false. change (68 =? 68) with true. cbv iota. destruct (Z.ltb_spec (i_init inf) 0); [lia|].
    cbn [bind]. change (negb (255 =? 255)) with false. cbv iota zeta. eexists. split; [reflexivity|]. split; [|destruct (_ <? 0); reflexivity].
    rewrite default_fastplay. apply Fin; [reflexivity| |discriminate]. sap_fields. rewrite E8, E7.
    unfold fastplay_written. change (68 =? 83) with false. cbv iota.
    destruct (Z.eqb_spec (i_fastplay inf) 312), (i_ntsc inf); cbn [negb orb]; match goal with |- context [?a <? 0] => destruct (Z.ltb_spec a 0) end; lia.
  - change (83 =? 66) with false. change (83 =? 67) with false. change (83 =? 68) with false. change (83 =? 83) with true. cbv iota. destruct (Z.ltb_spec (i_init inf) 0); [lia|].
    cbn [bind]. change (negb (255 =? 255)) with false. cbv iota zeta. eexists. split; [reflexivity|]. split; [|destruct (_ <? 0); reflexivity].
    rewrite (default_fastplay 78). rewrite default_fastplay, set_fastplay_twice. apply Fin; [reflexivity| |discriminate].
    cbn [set_fastplay set_type i_fastplay i_ntsc]. rewrite E8, E7. unfold fastplay_written. change (83 =? 83) with true. cbv iota.
    destruct (Z.eqb_spec (i_fastplay inf) 78), (i_ntsc inf); cbn [negb orb]; change (-1 <? 0) with true; cbv iota;
      change (78 <? 0) with false; replace (i_fastplay inf <? 0) with false by lia; cbv iota;
      try replace (i_fastplay inf <? 0) with false by lia; lia.
Qed.

(* ---- editing keeps the metadata savable ---- *)
Record sap_editable (module : list Z) (inf : info) : Prop := {
  se_songs : 1 <= i_songs inf <= 32;
  se_defsong : 0 <= i_defsong inf < i_songs inf;
  se_fastplay : 1 <= i_fastplay inf <= 32767;
  se_channels : 1 <= i_channels inf <= 2;
  se_covox : i_covox inf = -1 \/ (i_covox inf = 54784 /\ i_channels inf = 2);
  se_music : addr_or_none (i_music inf);
  se_init : addr_or_none (i_init inf);
  se_player : addr_or_none (i_player inf);
  se_type : match i_type inf with
            | SAP_B => 0 <= i_init inf /\ 0 <= i_player inf
            | SAP_C => 0 <= i_music inf /\ 0 <= i_player inf
            | SAP_D | SAP_S => 0 <= i_init inf
            | _ => False
            end;
  se_durations : len (i_durations inf) = 32;
  se_loops : len (i_loops inf) = 32;
  se_author : Forall sap_char (i_author inf);
  se_title : Forall sap_char (i_title inf);
  se_date : Forall sap_char (i_date inf);
  se_header : 5 <= i_headerLen inf /\ i_headerLen inf + 6 < len module
     /\ at_ module (i_headerLen inf) = 255 /\ at_ module (i_headerLen inf + 1) = 255
}.

Lemma meta_sap_text v : check_valid_text v = true -> Forall sap_char v.
Proof.
  intros H. apply check_valid_text_spec in H. destruct H as [_ H]. eapply Forall_impl; [|exact H].
  unfold meta_char, sap_char. intros; lia.
Qed.

Lemma set_nth_len {A} (l : list A) i v l' : set_nth l i v = Ok l' -> len l' = len l.
Proof. unfold set_nth. destruct (_ || _); [discriminate|]. intros [= <-]. apply len_upd. Qed.

Lemma edited_editable module i j : edited i j -> sap_editable module i -> sap_editable module j.
Proof.
  intros He Hi. induction He as [i|i j v b k He IH E|i j v b k He IH E|i j v b k He IH E|i j song b k He IH E
     |i j song d b k He IH E|i j song l b k He IH E|i j ntsc k He IH E|i j v b k He IH E]; [exact Hi|..].
  all: specialize (IH Hi).
  - unfold api_set_author in E. destruct (check_valid_text v) eqn:V; cbn [negb] in E; injection E as <- <-; [|exact IH].
    apply meta_sap_text in V. destruct IH. split; sap_fields; assumption.
  - unfold api_set_title in E. destruct (check_valid_text v) eqn:V; cbn [negb] in E; injection E as <- <-; [|exact IH].
    apply meta_sap_text in V. destruct IH. split; sap_fields; assumption.
  - unfold api_set_date in E. destruct (check_valid_text v) eqn:V; cbn [negb] in E; injection E as <- <-; [|exact IH].
    apply meta_sap_text in V. destruct IH. split; sap_fields; assumption.
  - unfold api_set_default_song in E. destruct ((song <? 0) || (i_songs j <=? song)) eqn:V; injection E as <- <-; [exact IH|].
    destruct IH. split; sap_fields; try assumption. lia.
  - unfold api_set_duration in E. destruct ((song <? 0) || (i_songs j <=? song)) eqn:V; [injection E as <- <-; exact IH|].
    destruct (set_nth (i_durations j) song d) as [l| | |] eqn:S; try discriminate. cbn [bind] in E. injection E as <- <-.
    apply set_nth_len in S. destruct IH. split; unfold set_durations; sap_fields; try assumption. lia.
  - unfold api_set_loop in E. destruct ((song <? 0) || (i_songs j <=? song)) eqn:V; [injection E as <- <-; exact IH|].
    destruct (set_nth (i_loops j) song l) as [l'| | |] eqn:S; try discriminate. cbn [bind] in E. injection E as <- <-.
    apply set_nth_len in S. destruct IH. split; unfold set_loops; sap_fields; try assumption. lia.
  - unfold api_set_ntsc in E. destruct (len (i_durations j) <? i_songs j); [discriminate|]. injection E as <-.
    destruct IH. split; unfold set_durations; sap_fields; try assumption; [destruct ntsc; lia|].
    unfold len. rewrite set_ntsc_durations_length. assumption.
  - unfold api_set_music_address in E. destruct ((v <? 0) || (65535 <=? v)) eqn:V; injection E as <- <-; [exact IH|].
    destruct IH. split; sap_fields; try assumption; [unfold addr_or_none in *; lia|].
    destruct (i_type j); try assumption; lia.
Qed.

Lemma loaded_editable module inf : sap_loaded module inf -> sap_editable module inf.
Proof. intros []. split; tauto. Qed.

Lemma editable_savable module inf : sap_editable module inf ->
  i_author inf <> unknown_text -> i_title inf <> unknown_text -> i_date inf <> unknown_text ->
  Forall (fun d => d < 6000000) (firstn (known_songs inf) (i_durations inf)) -> sap_savable module inf.
Proof. intros []. split; tauto. Qed.

Lemma sap_chars_bytes t : Forall sap_char t -> bytes t.
Proof. intros H. eapply Forall_impl; [|exact H]. unfold sap_char, byte. intros; lia. Qed.

(* what saving as SAP emits *)
Definition sap_header_text (inf : info) : list Z :=
  str "SAP" ++ [13; 10] ++ lines_text (sap_lines inf (type_letter inf) (i_init inf) (i_player inf)).

Lemma emits_sap_file module inf : sap_editable module inf ->
  emits (write_executable false inf module) (sap_header_text inf ++ slice module (i_headerLen inf) (len module)).
Proof.
  intros []. unfold addr_or_none in *.
  assert (K : emits (write_executable_from_sap false inf (type_letter inf) module) (sap_header_text inf ++ slice module (i_headerLen inf) (len module))).
  { unfold write_executable_from_sap, write_executable_header. apply emits_seq.
    - apply emits_sap_header; try lia.
      + split; [|split]; apply sap_chars_bytes; assumption.
      + unfold type_letter, api_get_type_letter. destruct (i_type inf); lia.
    - apply emits_bytes; lia. }
  unfold write_executable, player_routine. unfold type_letter, api_get_type_letter in K. destruct (i_type inf) eqn:E; try contradiction.
  - exact K.
  - eapply emits_eq; [apply emits_seq; [exact K|exact emits_wok]|]. apply app_nil_r.
  - exact K.
  - exact K.
Qed.
