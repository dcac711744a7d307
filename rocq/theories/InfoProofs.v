(* Proofs about ASAPInfo's setters, getters and file-type recognition. *)
From Verif Require Import Base BaseFacts InfoModel InfoSpec.

(* ---- texts ---- *)
Lemma is_valid_char_spec c : is_valid_char c = true <-> meta_char c.
Proof. unfold is_valid_char, meta_char. lia. Qed.

Lemma check_valid_text_spec s : check_valid_text s = true <-> meta_text s.
Proof.
  unfold check_valid_text, meta_text. destruct (Z.ltb_spec 127 (len s)) as [H|H].
  - split; [discriminate|intros [K _]; lia].
  - rewrite forallb_forall, Forall_forall. split.
    + intros K. split; [lia|]. intros x Hx. apply is_valid_char_spec. auto.
    + intros [_ K] x Hx. apply is_valid_char_spec. auto.
Qed.

(* ---- dates ---- *)
Lemma cd_digit c : ((48 <=? c) && (c <=? 57) = true) -> digit (c - 48) /\ c = 48 + (c - 48).
Proof. unfold digit. lia. Qed.

Ltac eval_date_ifs :=
  repeat match goal with
  | |- context [if (?i =? ?a) || (?i2 =? ?b) then _ else _] =>
    let v := eval vm_compute in ((i =? a) || (i2 =? b)) in change ((i =? a) || (i2 =? b)) with v; cbn iota
  end.

Lemma check_date_complete self y m d : date_syntax (i_date self) y m d -> check_date self = len (i_date self).
Proof.
  intros H. unfold check_date. remember (i_date self) as s eqn:Es. clear Es.
  destruct H; unfold digit in *;
  match goal with |- context [len ?l] => let v := eval vm_compute in (len l) in change (len l) with v end;
  cbv zeta; cbn [check_date_loop]; eval_date_ifs; cbn [Z.eqb Pos.eqb orb];
  match goal with |- context [if ?b then _ else _] => replace b with true by lia; reflexivity end.
Qed.

Lemma check_date_sound self : check_date self <> -1 -> exists y m d, date_syntax (i_date self) y m d.
Proof.
  unfold check_date. destruct (i_date self) as [|c0 [|c1 [|c2 [|c3 s]]]] eqn:E; try (cbn; congruence).
  destruct s as [|c4 s].
  { cbn [len length Z.of_nat Pos.of_succ_nat Pos.succ Z.eqb Pos.eqb orb].
    match goal with |- context [if ?b then _ else _] => destruct b eqn:B end; [|congruence]. intros _.
    cbn [check_date_loop] in B.
    repeat match goal with H : (_ && _) = true |- _ => apply andb_true_iff in H; destruct H end.
    repeat match goal with H : (if (?i =? ?a) || (?i2 =? ?b) then _ else _) = true |- _ =>
       let v := eval cbv in ((i =? a) || (i2 =? b)) in change ((i =? a) || (i2 =? b)) with v in H; cbn iota in H end.
    rewrite (proj2 (cd_digit c0 ltac:(lia))), (proj2 (cd_digit c1 ltac:(lia))), (proj2 (cd_digit c2 ltac:(lia))), (proj2 (cd_digit c3 ltac:(lia))).
    do 3 eexists; constructor; unfold digit; lia. }
  destruct s as [|c5 [|c6 s]]; try (cbn; congruence).
  destruct s as [|c7 s].
  { cbn [len length Z.of_nat Pos.of_succ_nat Pos.succ Z.eqb Pos.eqb orb].
    match goal with |- context [if ?b then _ else _] => destruct b eqn:B end; [|congruence]. intros _.
    cbn [check_date_loop] in B.
    repeat match goal with H : (_ && _) = true |- _ => apply andb_true_iff in H; destruct H end.
    repeat match goal with H : (if (?i =? ?a) || (?i2 =? ?b) then _ else _) = true |- _ =>
       let v := eval cbv in ((i =? a) || (i2 =? b)) in change ((i =? a) || (i2 =? b)) with v in H; cbn iota in H end.
    assert (c2 = 47) by lia. subst c2.
    rewrite (proj2 (cd_digit c0 ltac:(lia))), (proj2 (cd_digit c1 ltac:(lia))), (proj2 (cd_digit c3 ltac:(lia))),
      (proj2 (cd_digit c4 ltac:(lia))), (proj2 (cd_digit c5 ltac:(lia))), (proj2 (cd_digit c6 ltac:(lia))).
    do 3 eexists; constructor; unfold digit; lia. }
  destruct s as [|c8 [|c9 s]]; try (cbn; congruence).
  destruct s as [|c10 s].
  { cbn [len length Z.of_nat Pos.of_succ_nat Pos.succ Z.eqb Pos.eqb orb].
    match goal with |- context [if ?b then _ else _] => destruct b eqn:B end; [|congruence]. intros _.
    cbn [check_date_loop] in B.
    repeat match goal with H : (_ && _) = true |- _ => apply andb_true_iff in H; destruct H end.
    repeat match goal with H : (if (?i =? ?a) || (?i2 =? ?b) then _ else _) = true |- _ =>
       let v := eval cbv in ((i =? a) || (i2 =? b)) in change ((i =? a) || (i2 =? b)) with v in H; cbn iota in H end.
    assert (c2 = 47) by lia. assert (c5 = 47) by lia. subst c2 c5.
    rewrite (proj2 (cd_digit c0 ltac:(lia))), (proj2 (cd_digit c1 ltac:(lia))), (proj2 (cd_digit c3 ltac:(lia))),
      (proj2 (cd_digit c4 ltac:(lia))), (proj2 (cd_digit c6 ltac:(lia))), (proj2 (cd_digit c7 ltac:(lia))),
      (proj2 (cd_digit c8 ltac:(lia))), (proj2 (cd_digit c9 ltac:(lia))).
    do 3 eexists; constructor; unfold digit; lia. }
  assert (L : len (c0 :: c1 :: c2 :: c3 :: c4 :: c5 :: c6 :: c7 :: c8 :: c9 :: c10 :: s) > 10).
  { rewrite !len_cons. pose proof (len_nonneg s). lia. }
  replace ((_ =? 4) || (_ =? 7) || (_ =? 10)) with false by lia. congruence.
Qed.

Lemma get_closed l i v : 0 <= i -> nth_error l (Z.to_nat i) = Some v -> get l i = Ok v.
Proof. intros H E. unfold get. replace (i <? 0) with false by lia. now rewrite E. Qed.

Lemma date_queries self :
  (forall y m d, date_syntax (i_date self) y m d ->
     api_get_year self = Ok y /\ api_get_month self = Ok (or_minus_one m) /\ api_get_day self = Ok (or_minus_one d))
  /\ ((forall y m d, ~ date_syntax (i_date self) y m d) ->
     api_get_year self = Ok (-1) /\ api_get_month self = Ok (-1) /\ api_get_day self = Ok (-1)).
Proof.
  split.
  - intros y m d H. unfold api_get_year, api_get_month, api_get_day.
    rewrite (check_date_complete _ _ _ _ H). unfold two_date_digits.
    remember (i_date self) as s eqn:Es. clear Es.
    destruct H; unfold digit in *;
    match goal with |- context [len ?l] => let v := eval vm_compute in (len l) in change (len l) with v end;
    cbv zeta; cbn [Z.ltb Z.eqb Z.compare Pos.compare Pos.compare_cont Pos.eqb negb or_minus_one];
    unfold cget; repeat erewrite get_closed by (try reflexivity; lia); cbn [bind];
    repeat split; f_equal; lia.
  - intros N. unfold api_get_year, api_get_month, api_get_day.
    assert (E : check_date self = -1).
    { destruct (Z.eq_dec (check_date self) (-1)) as [E|E]; [exact E|].
      destruct (check_date_sound _ E) as (y & m & d & H). destruct (N _ _ _ H). }
    rewrite E. cbn. auto.
Qed.

(* ---- NTSC ---- *)
Lemma set_ntsc_durations_nth ntsc n l k :
  (k < length l)%nat ->
  nth k (set_ntsc_durations ntsc n l) 0 =
  if (k <? n)%nat && (0 <? nth k l 0) then convert_duration ntsc (nth k l 0) else nth k l 0.
Proof.
  revert l k. induction n as [|n IH]; intros l k H; [reflexivity|].
  destruct l as [|d l]; cbn [length] in H; [lia|].
  destruct k as [|k]; cbn [set_ntsc_durations nth]; [destruct (0 <? d); reflexivity|].
  rewrite IH by lia. replace (S k <? S n)%nat with (k <? n)%nat by reflexivity. reflexivity.
Qed.

Lemma set_ntsc_durations_length ntsc n l : length (set_ntsc_durations ntsc n l) = length l.
Proof.
  revert l. induction n as [|n IH]; intros [|d l]; cbn [set_ntsc_durations length]; try reflexivity.
  now rewrite IH.
Qed.

Lemma wrap32_id v : -2147483648 <= v <= 2147483647 -> wrap32 v = v.
Proof. unfold wrap32. lia. Qed.

Lemma to_ntsc_value d : 0 < d <= 2147483647 -> convert_duration true d = d * 5956963 / 7159090.
Proof. intros H. unfold convert_duration. apply wrap32_id. lia. Qed.

Lemma to_pal_value d : 0 < d <= 1786886410 -> convert_duration false d = d * 7159090 / 5956963.
Proof. intros H. unfold convert_duration. apply wrap32_id. lia. Qed.

Lemma set_ntsc_spec self ntsc :
  i_songs self <= len (i_durations self) ->
  exists self', api_set_ntsc self ntsc = Ok self'
  /\ i_ntsc self' = ntsc
  /\ i_fastplay self' = (if ntsc then 262 else 312)
  /\ length (i_durations self') = length (i_durations self)
  /\ (forall k, 0 <= k < len (i_durations self) ->
        at_ (i_durations self') k =
          if (k <? i_songs self) && (0 <? at_ (i_durations self) k)
          then convert_duration ntsc (at_ (i_durations self) k)
          else at_ (i_durations self) k)
  /\ (i_filename self', i_author self', i_title self', i_date self', i_channels self', i_songs self',
      i_defsong self', i_loops self', i_type self')
   = (i_filename self, i_author self, i_title self, i_date self, i_channels self, i_songs self,
      i_defsong self, i_loops self, i_type self)
  /\ (i_music self', i_init self', i_player self', i_covox self', i_headerLen self', i_songPos self')
   = (i_music self, i_init self, i_player self, i_covox self, i_headerLen self, i_songPos self).
Proof.
  intros Hs. unfold api_set_ntsc. replace (len (i_durations self) <? i_songs self) with false by lia.
  eexists. split; [reflexivity|]. cbn [i_ntsc i_fastplay i_durations set_durations set_fastplay set_ntsc].
  repeat (split; [reflexivity|]).
  split; [apply set_ntsc_durations_length|]. split; [|auto].
  intros k Hk. unfold at_. rewrite set_ntsc_durations_nth by (unfold len in Hk; lia).
  replace (Z.to_nat k <? Z.to_nat (i_songs self))%nat with (k <? i_songs self) by lia. reflexivity.
Qed.

Lemma ntsc_there_and_back self :
  0 <= i_songs self <= len (i_durations self) ->
  (forall k, 0 <= k < i_songs self -> at_ (i_durations self) k <= 2147483647) ->
  exists back, (there <- api_set_ntsc self true ;; api_set_ntsc there false) = Ok back
  /\ forall k, 0 <= k < len (i_durations self) ->
    let d := at_ (i_durations self) k in
    let d' := at_ (i_durations back) k in
    d' <= d <= d' + 2 /\ (d <= 0 -> d' = d).
Proof.
  intros Hs Hd.
  destruct (set_ntsc_spec self true ltac:(lia)) as (there & Et & _ & _ & L1 & D1 & E1 & _).
  assert (S1 : i_songs there = i_songs self) by congruence.
  destruct (set_ntsc_spec there false ltac:(unfold len in *; lia)) as (back & Eb & _ & _ & L2 & D2 & _).
  exists back. rewrite Et. cbn [bind]. split; [exact Eb|]. intros k Hk. cbv zeta.
  rewrite D2 by (unfold len in *; lia). rewrite D1, S1 by exact Hk.
  specialize (Hd k). set (d := at_ (i_durations self) k) in *.
  destruct (Z.ltb_spec k (i_songs self)) as [L|L]; cbn [andb]; [|lia].
  specialize (Hd ltac:(lia)).
  destruct (Z.ltb_spec 0 d) as [P|P].
  - rewrite to_ntsc_value by lia.
    destruct (Z.ltb_spec 0 (d * 5956963 / 7159090)) as [Q|Q]; [|lia].
    rewrite to_pal_value by lia. lia.
  - replace (0 <? d) with false by lia. lia.
Qed.

(* ---- song-indexed setters ---- *)
Lemma at_upd_eq l i v : 0 <= i < len l -> at_ (upd l (Z.to_nat i) v) i = v.
Proof. intros H. unfold at_. apply nth_upd_eq. unfold len in H. lia. Qed.

Lemma at_upd_ne l i j v : 0 <= i -> 0 <= j -> i <> j -> at_ (upd l (Z.to_nat i) v) j = at_ l j.
Proof. intros Hi Hj N. unfold at_. apply nth_upd_ne. lia. Qed.

Lemma set_duration_spec self song v :
  i_songs self <= len (i_durations self) ->
  (0 <= song < i_songs self /\
   exists d, api_set_duration self song v = Ok (true, set_durations d self)
     /\ length d = length (i_durations self)
     /\ forall k, 0 <= k < len d -> at_ d k = if k =? song then v else at_ (i_durations self) k)
  \/ (~ 0 <= song < i_songs self /\ api_set_duration self song v = Ok (false, self)).
Proof.
  intros Hs. unfold api_set_duration, set_nth.
  destruct ((song <? 0) || (i_songs self <=? song)) eqn:B; [right; split; [lia|reflexivity]|left].
  split; [lia|]. replace ((song <? 0) || (len (i_durations self) <=? song)) with false by lia.
  eexists. split; [reflexivity|]. split; [apply length_upd|]. intros k Hk. rewrite len_upd in Hk.
  destruct (Z.eqb_spec k song) as [->|N]; [apply at_upd_eq; lia|apply at_upd_ne; lia].
Qed.

Lemma set_loop_spec self song v :
  i_songs self <= len (i_loops self) ->
  (0 <= song < i_songs self /\
   exists d, api_set_loop self song v = Ok (true, set_loops d self)
     /\ length d = length (i_loops self)
     /\ forall k, 0 <= k < len d ->
          nth (Z.to_nat k) d false = if k =? song then v else nth (Z.to_nat k) (i_loops self) false)
  \/ (~ 0 <= song < i_songs self /\ api_set_loop self song v = Ok (false, self)).
Proof.
  intros Hs. unfold api_set_loop, set_nth.
  destruct ((song <? 0) || (i_songs self <=? song)) eqn:B; [right; split; [lia|reflexivity]|left].
  split; [lia|]. replace ((song <? 0) || (len (i_loops self) <=? song)) with false by lia.
  eexists. split; [reflexivity|]. split; [apply length_upd|]. intros k Hk. rewrite len_upd in Hk.
  destruct (Z.eqb_spec k song) as [->|N]; [apply nth_upd_eq; unfold len in Hk; lia|apply nth_upd_ne; lia].
Qed.

(* ---- bit concatenation ---- *)
Lemma testbit_concat a b n i : 0 <= n -> 0 <= i -> 0 <= a < 2 ^ n ->
  Z.testbit (a + b * 2 ^ n) i = if i <? n then Z.testbit a i else Z.testbit b (i - n).
Proof.
  intros Hn Hi Ha. assert (P : 0 < 2 ^ n) by (apply Z.pow_pos_nonneg; lia).
  destruct (Z.ltb_spec i n) as [L|L].
  - rewrite <- (Z.mod_pow2_bits_low (a + b * 2 ^ n) n i) by lia.
    rewrite Z.mod_add by lia. now rewrite Z.mod_small by lia.
  - replace i with (i - n + n) at 1 by lia. rewrite <- Z.div_pow2_bits by lia.
    rewrite Z.div_add by lia. rewrite Z.div_small by lia. reflexivity.
Qed.

Lemma lor_bound a x n : 0 <= n -> 0 <= a < 2 ^ n -> 0 <= x < 2 ^ n -> 0 <= Z.lor a x < 2 ^ n.
Proof.
  intros Hn Ha Hx. split; [apply Z.lor_nonneg; lia|].
  destruct (Z.eq_dec (Z.lor a x) 0) as [->|N]; [lia|].
  assert (0 < Z.lor a x) by (pose proof (proj2 (Z.lor_nonneg a x)); lia).
  apply Z.log2_lt_pow2; [lia|]. rewrite Z.log2_lor by lia.
  assert (forall y, 0 <= y < 2 ^ n -> 0 < n -> Z.log2 y < n).
  { intros y Hy Hn'. destruct (Z.eq_dec y 0) as [->|]; [cbn; lia|]. apply Z.log2_lt_pow2; lia. }
  destruct (Z.eq_dec n 0) as [->|]; [cbn in Ha, Hx; assert (a = 0) by lia; assert (x = 0) by lia; subst; cbn in N; lia|].
  apply Z.max_lub_lt; auto with zarith.
Qed.

Lemma lor_concat a b x y n : 0 <= n -> 0 <= a < 2 ^ n -> 0 <= x < 2 ^ n ->
  Z.lor (a + b * 2 ^ n) (x + y * 2 ^ n) = Z.lor a x + Z.lor b y * 2 ^ n.
Proof.
  intros Hn Ha Hx. apply Z.bits_inj'. intros i Hi.
  rewrite Z.lor_spec, !testbit_concat by (try assumption; apply lor_bound; assumption).
  rewrite !Z.lor_spec. destruct (i <? n); reflexivity.
Qed.

(* ---- extensions ---- *)
(* little-endian packing of the characters *)
Fixpoint pack_le (l : list Z) : Z := match l with [] => 0 | c :: r => c + 256 * pack_le r end.

Definition ext_char (c : Z) : Prop := 33 <= c <= 122 /\ c <> 46.

Lemma packed_ext_loop_step c r ext : r <> [] ->
  packed_ext_loop (c :: r) ext =
    if (c <=? 32) || (122 <? c) then 0
    else if c =? 46 then Z.lor ext 2105376
    else packed_ext_loop r ((Z.shiftl ext 8 + c) mod 4294967296).
Proof. destruct r; [congruence|reflexivity]. Qed.

(* the loop over a name STEM.EXT, seen from its end *)
Lemma packed_ext_loop_run e stem acc : stem <> [] -> Forall ext_char e ->
  0 <= acc < 4294967296 ->
  packed_ext_loop (rev e ++ 46 :: rev stem) acc =
  Z.lor ((acc * 256 ^ len e + pack_le e) mod 4294967296) 2105376.
Proof.
  revert acc. induction e as [|c e IH] using rev_ind; intros acc Hs He Ha.
  - cbn [rev app]. destruct (rev stem) as [|x r] eqn:E.
    + exfalso. apply Hs. rewrite <- (rev_involutive stem), E. reflexivity.
    + cbn [packed_ext_loop]. cbn [Z.leb Z.ltb Z.compare Pos.compare Pos.compare_cont orb Z.eqb Pos.eqb].
      rewrite len_nil. cbn [pack_le]. rewrite Z.pow_0_r, Z.mul_1_r, Z.add_0_r, Z.mod_small by lia. reflexivity.
  - rewrite rev_app_distr. cbn [rev app].
    apply Forall_app in He. destruct He as [He Hc]. apply Forall_cons_iff in Hc. destruct Hc as [[Hc1 Hc2] _].
    rewrite packed_ext_loop_step by (destruct (rev e); discriminate).
    replace ((c <=? 32) || (122 <? c)) with false by lia.
    replace (c =? 46) with false by lia.
    rewrite IH by (try assumption; apply Z.mod_pos_bound; lia).
    rewrite len_app. change (len [c]) with 1. f_equal.
    assert (P : pack_le (e ++ [c]) = pack_le e + 256 ^ len e * c).
    { clear. induction e as [|x e IH]; [change (len (@nil Z)) with 0; cbn [app pack_le]; lia|].
      cbn [app pack_le]. rewrite IH, len_cons, Z.pow_add_r by (pose proof (len_nonneg e); lia). lia. }
    rewrite P. rewrite Z.pow_add_r by (pose proof (len_nonneg e); lia).
    rewrite Z.shiftl_mul_pow2 by lia. change (2 ^ 8) with 256. change (256 ^ 1) with 256.
    rewrite Z.add_mod by lia. rewrite <- Z.mul_mod_idemp_l by lia.
    rewrite Z.mod_mod by lia. rewrite Z.mul_mod_idemp_l by lia. rewrite <- Z.add_mod by lia.
    f_equal. lia.
Qed.

(* a name without such a suffix packs to 0 *)
Lemma packed_ext_loop_none l acc :
  packed_ext_loop l acc <> 0 ->
  exists e r, l = e ++ 46 :: r /\ r <> [] /\ Forall ext_char e.
Proof.
  revert acc. induction l as [|c l IH]; intros acc H; [cbn in H; congruence|].
  cbn [packed_ext_loop] in H. destruct l as [|x l]; [congruence|].
  destruct ((c <=? 32) || (122 <? c)) eqn:C; [congruence|].
  destruct (Z.eqb_spec c 46) as [->|N].
  - exists [], (x :: l). repeat split; [discriminate|constructor].
  - destruct (IH _ H) as (e & r & E & Hr & He). exists (c :: e), r. rewrite E.
    repeat split; try assumption. constructor; [|assumption]. unfold ext_char. lia.
Qed.

Definition zrange (n : nat) : list Z := map Z.of_nat (seq 0 n).

Lemma in_zrange n i : In i (zrange n) <-> 0 <= i < Z.of_nat n.
Proof.
  unfold zrange. rewrite in_map_iff. split.
  - intros (k & <- & H). apply in_seq in H. lia.
  - intros H. exists (Z.to_nat i). split; [lia|]. apply in_seq. lia.
Qed.

Lemma forallb_zrange n p : forallb p (zrange n) = true -> forall i, 0 <= i < Z.of_nat n -> p i = true.
Proof. intros H i Hi. rewrite forallb_forall in H. apply H. now apply in_zrange. Qed.

(* setting bit 5 of a character above the space *)
Definition is_target (t : Z) : bool := ((97 <=? t) && (t <=? 122)) || ((48 <=? t) && (t <=? 57)).

Lemma lor32_lower c t : 33 <= c <= 122 -> is_target t = true -> 0 <= t < 128 -> (Z.lor c 32 = t <-> lower c = t).
Proof.
  intros Hc Ht Hr.
  assert (F : forallb (fun c => forallb (fun t =>
     if (33 <=? c) && (c <=? 122) && is_target t then Bool.eqb (Z.lor c 32 =? t) (lower c =? t) else true)
     (zrange 128)) (zrange 128) = true) by (vm_compute; reflexivity).
  pose proof (forallb_zrange _ _ F c ltac:(lia)) as F1. cbn beta in F1.
  pose proof (forallb_zrange _ _ F1 t ltac:(lia)) as F2. cbn beta in F2.
  clear F F1. rewrite Ht, andb_true_r in F2. replace ((33 <=? c) && (c <=? 122)) with true in F2 by (symmetry; apply andb_true_iff; lia).
  apply eqb_prop in F2. lia.
Qed.

Lemma lor32_nonspace c : 33 <= c <= 122 -> 32 < Z.lor c 32 < 128.
Proof.
  intros Hc.
  assert (F : forallb (fun c => if (33 <=? c) && (c <=? 122) then (32 <? Z.lor c 32) && (Z.lor c 32 <? 128) else true)
     (zrange 128) = true) by (vm_compute; reflexivity).
  pose proof (forallb_zrange _ _ F c ltac:(lia)) as F1. cbn beta in F1. clear F. replace ((33 <=? c) && (c <=? 122)) with true in F1 by (symmetry; apply andb_true_iff; lia). lia.
Qed.

Lemma lor_pack3 a b c r : 0 <= a < 256 -> 0 <= b < 256 -> 0 <= c < 256 ->
  Z.lor (a + 256 * (b + 256 * (c + 256 * r))) 2105376 =
  Z.lor a 32 + 256 * (Z.lor b 32 + 256 * (Z.lor c 32 + 256 * r)).
Proof.
  intros Ha Hb Hc.
  replace (a + 256 * (b + 256 * (c + 256 * r))) with (a + (b + (c + r * 2 ^ 8) * 2 ^ 8) * 2 ^ 8) by (change (2 ^ 8) with 256; lia).
  replace 2105376 with (32 + (32 + (32 + 0 * 2 ^ 8) * 2 ^ 8) * 2 ^ 8) by reflexivity.
  rewrite !lor_concat by (change (2 ^ 8) with 256; lia). rewrite Z.lor_0_r. change (2 ^ 8) with 256. lia.
Qed.

Definition packed_of (e : list Z) : Z :=
  match e with
  | [a; b; c] => a + 256 * (b + 256 * c)
  | [a; b] => a + 256 * (b + 256 * 32)
  | _ => 0
  end.

Lemma is_our_packed_spec v :
  is_our_packed_ext v = true <-> In v (map packed_of supported_exts).
Proof.
  split.
  - intros H. unfold is_our_packed_ext in H.
    repeat match type of H with
    | (match ?x with _ => _ end) = true => destruct x; try discriminate
    end; vm_compute; tauto.
  - intros H. vm_compute in H. repeat (destruct H as [<-|H]; [reflexivity|]). contradiction.
Qed.

Lemma supported_exts_shape e : In e supported_exts ->
  (exists a b c, e = [a; b; c] /\ is_target a = true /\ is_target b = true /\ is_target c = true)
  \/ (exists a b, e = [a; b] /\ is_target a = true /\ is_target b = true).
Proof.
  intros H. unfold supported_exts in H.
  repeat (destruct H as [<-|H]; [try (left; do 3 eexists; repeat split; reflexivity);
     right; do 2 eexists; repeat split; reflexivity|]).
  contradiction.
Qed.

Lemma is_target_bound t : is_target t = true -> 48 <= t <= 122.
Proof. unfold is_target. lia. Qed.

Lemma lower_target_char c t : lower c = t -> is_target t = true -> ext_char c.
Proof. unfold lower, is_target, ext_char. intros H T. destruct ((65 <=? c) && (c <=? 90)) eqn:E; lia. Qed.

Lemma packed_unique a b c a' b' c' :
  0 <= a < 256 -> 0 <= b < 256 -> 0 <= a' < 256 -> 0 <= b' < 256 ->
  a + 256 * (b + 256 * c) = a' + 256 * (b' + 256 * c') -> a = a' /\ b = b' /\ c = c'.
Proof. lia. Qed.

Lemma ext_match e : Forall (fun c => 33 <= c <= 122) e ->
  (In (Z.lor (pack_le e mod 4294967296) 2105376) (map packed_of supported_exts) <-> In (map lower e) supported_exts).
Proof.
  intros He.
  pose proof (proj1 (Forall_forall _ _) He) as R. cbn beta in R.
  destruct e as [|a [|b [|c e]]].
  - vm_compute. intuition discriminate.
  - pose proof (R a ltac:(now left)) as Ra. cbn [pack_le map].
    rewrite Z.mod_small by lia. replace (a + 256 * 0) with (a + 256 * (0 + 256 * (0 + 256 * 0))) by lia.
    rewrite lor_pack3 by lia. change (Z.lor 0 32) with 32.
    pose proof (lor32_nonspace a Ra) as Na. split; intros H.
    + cbn [map packed_of supported_exts In] in H. repeat (destruct H as [H|H]; [lia|]). contradiction.
    + unfold supported_exts in H. repeat (destruct H as [H|H]; [discriminate|]). contradiction.
  - pose proof (R a ltac:(now left)) as Ra. pose proof (R b ltac:(right; now left)) as Rb.
    cbn [pack_le map]. rewrite Z.mod_small by lia.
    replace (a + 256 * (b + 256 * 0)) with (a + 256 * (b + 256 * (0 + 256 * 0))) by lia.
    rewrite lor_pack3 by lia. change (Z.lor 0 32) with 32.
    pose proof (lor32_nonspace a Ra) as Na. pose proof (lor32_nonspace b Rb) as Nb. split; intros H.
    + apply in_map_iff in H. destruct H as (x & Hx & Hin).
      destruct (supported_exts_shape _ Hin) as [(x1 & x2 & x3 & -> & T1 & T2 & T3)|(x1 & x2 & -> & T1 & T2)];
      pose proof (is_target_bound _ T1); pose proof (is_target_bound _ T2); cbn [packed_of] in Hx.
      * pose proof (is_target_bound _ T3). exfalso. apply packed_unique in Hx; lia.
      * apply packed_unique in Hx; try lia. destruct Hx as (E1 & E2 & _).
        rewrite (proj1 (lor32_lower a x1 Ra T1 ltac:(lia)) (eq_sym E1)).
        rewrite (proj1 (lor32_lower b x2 Rb T2 ltac:(lia)) (eq_sym E2)). assumption.
    + destruct (supported_exts_shape _ H) as [(x1 & x2 & x3 & E & T1 & T2 & T3)|(x1 & x2 & E & T1 & T2)]; [discriminate|].
      injection E as E1 E2. apply in_map_iff. exists [x1; x2]. split; [|now rewrite E1, E2 in H].
      pose proof (is_target_bound _ T1); pose proof (is_target_bound _ T2).
      rewrite (proj2 (lor32_lower a x1 Ra T1 ltac:(lia)) E1), (proj2 (lor32_lower b x2 Rb T2 ltac:(lia)) E2).
      cbn [packed_of]. lia.
  - pose proof (R a ltac:(now left)) as Ra. pose proof (R b ltac:(right; now left)) as Rb.
    pose proof (R c ltac:(right; right; now left)) as Rc.
    pose proof (lor32_nonspace a Ra) as Na. pose proof (lor32_nonspace b Rb) as Nb. pose proof (lor32_nonspace c Rc) as Nc.
    cbn [pack_le].
    destruct e as [|d e].
    + cbn [pack_le map]. rewrite Z.mod_small by lia.
      rewrite lor_pack3 by lia. split; intros H.
      * apply in_map_iff in H. destruct H as (x & Hx & Hin).
        destruct (supported_exts_shape _ Hin) as [(x1 & x2 & x3 & -> & T1 & T2 & T3)|(x1 & x2 & -> & T1 & T2)];
        pose proof (is_target_bound _ T1); pose proof (is_target_bound _ T2); cbn [packed_of] in Hx.
        -- pose proof (is_target_bound _ T3). apply packed_unique in Hx; try lia. destruct Hx as (E1 & E2 & E3).
           rewrite (proj1 (lor32_lower a x1 Ra T1 ltac:(lia)) (eq_sym E1)).
           rewrite (proj1 (lor32_lower b x2 Rb T2 ltac:(lia)) (eq_sym E2)).
           rewrite (proj1 (lor32_lower c x3 Rc T3 ltac:(lia)) ltac:(lia)). assumption.
        -- exfalso. apply packed_unique in Hx; lia.
      * destruct (supported_exts_shape _ H) as [(x1 & x2 & x3 & E & T1 & T2 & T3)|(x1 & x2 & E & T1 & T2)]; [|discriminate].
        injection E as E1 E2 E3. apply in_map_iff. exists [x1; x2; x3]. split; [|now rewrite E1, E2, E3 in H].
        pose proof (is_target_bound _ T1); pose proof (is_target_bound _ T2); pose proof (is_target_bound _ T3).
        rewrite (proj2 (lor32_lower a x1 Ra T1 ltac:(lia)) E1), (proj2 (lor32_lower b x2 Rb T2 ltac:(lia)) E2),
          (proj2 (lor32_lower c x3 Rc T3 ltac:(lia)) E3).
        cbn [packed_of]. lia.
    + pose proof (R d ltac:(right; right; right; now left)) as Rd.
      cbn [pack_le].
      assert (M : (a + 256 * (b + 256 * (c + 256 * (d + 256 * pack_le e)))) mod 4294967296 =
                  a + 256 * (b + 256 * (c + 256 * d))) by lia.
      rewrite M, lor_pack3 by lia. split; intros H.
      * exfalso. cbn [map packed_of supported_exts In] in H. repeat (destruct H as [H|H]; [lia|]). contradiction.
      * exfalso. destruct (supported_exts_shape _ H) as [(x1 & x2 & x3 & E & _)|(x1 & x2 & E & _)]; discriminate.
Qed.

Lemma ext_chars e : Forall ext_char e -> Forall (fun c => 33 <= c <= 122) e.
Proof. apply Forall_impl. intros c [H _]. exact H. Qed.

Lemma is_our_file_spec name : is_our_file name = true <-> supported_name name.
Proof.
  unfold is_our_file, get_packed_ext, supported_name. rewrite is_our_packed_spec. split.
  - intros H. assert (N : packed_ext_loop (rev name) 0 <> 0).
    { intros E. rewrite E in H. vm_compute in H. intuition discriminate. }
    destruct (packed_ext_loop_none _ _ N) as (e & r & E & Hr & He).
    assert (En : name = rev r ++ [46] ++ rev e).
    { rewrite <- (rev_involutive name), E, rev_app_distr. cbn [rev]. now rewrite <- app_assoc. }
    exists (rev r), (rev e). split; [exact En|]. split.
    { intros C. apply Hr. rewrite <- (rev_involutive r), C. reflexivity. }
    rewrite E in H. replace e with (rev (rev e)) in H by apply rev_involutive.
    replace r with (rev (rev r)) in H by apply rev_involutive.
    rewrite packed_ext_loop_run in H; [| |now apply Forall_rev|lia].
    2:{ intros C. apply Hr. rewrite <- (rev_involutive r), C. reflexivity. }
    rewrite Z.mul_0_l, Z.add_0_l in H. apply ext_match in H; [exact H|now apply ext_chars, Forall_rev].
  - intros (stem & ext & -> & Hs & Hin).
    assert (He : Forall ext_char ext).
    { destruct (supported_exts_shape _ Hin) as [(x1 & x2 & x3 & E & T1 & T2 & T3)|(x1 & x2 & E & T1 & T2)].
      - destruct ext as [|a [|b [|c [|]]]]; try discriminate. injection E as E1 E2 E3.
        repeat constructor; eauto using lower_target_char; eapply lower_target_char; eassumption.
      - destruct ext as [|a [|b [|]]]; try discriminate. injection E as E1 E2.
        repeat constructor; eauto using lower_target_char; eapply lower_target_char; eassumption. }
    rewrite !rev_app_distr. cbn [rev app]. rewrite <- app_assoc. cbn [app].
    rewrite packed_ext_loop_run by (assumption || lia).
    rewrite Z.mul_0_l, Z.add_0_l. now apply ext_match; [apply ext_chars|].
Qed.

Lemma is_our_ext_control_char : exists ext, is_our_ext ext = true /\ ~ In (map lower ext) supported_exts.
Proof. exists [99; 109; 19]. split; [reflexivity|]. cbn. intuition discriminate. Qed.

Lemma lor_shiftl_add a b n : 0 <= n -> 0 <= a < 2 ^ n -> Z.lor a (Z.shiftl b n) = a + b * 2 ^ n.
Proof.
  intros Hn Ha. rewrite Z.shiftl_mul_pow2 by lia.
  transitivity (Z.lor (a + 0 * 2 ^ n) (0 + b * 2 ^ n)).
  { f_equal; lia. }
  assert (0 < 2 ^ n) by (apply Z.pow_pos_nonneg; lia).
  rewrite lor_concat by lia. now rewrite Z.lor_0_r, Z.lor_0_l.
Qed.

Lemma is_our_ext_spec ext : Forall (fun c => 33 <= c <= 122) ext ->
  (is_our_ext ext = true <-> In (map lower ext) supported_exts).
Proof.
  intros H. unfold is_our_ext. pose proof (ext_match ext H) as M.
  pose proof (proj1 (Forall_forall _ _) H) as R. cbn beta in R.
  destruct ext as [|a [|b [|c [|d e]]]].
  - cbn. intuition discriminate.
  - cbn. intuition discriminate.
  - pose proof (R a ltac:(now left)) as Ra. pose proof (R b ltac:(right; now left)) as Rb.
    rewrite <- M, is_our_packed_spec. unfold pack_ext. replace ((a <=? 122) && (b <=? 122)) with true by lia.
    rewrite lor_shiftl_add by (change (2 ^ 8) with 256; lia). cbn [pack_le]. rewrite Z.mod_small by lia.
    replace (a + 256 * (b + 256 * 0)) with (a + b * 2 ^ 8) by (change (2 ^ 8) with 256; lia). reflexivity.
  - pose proof (R a ltac:(now left)) as Ra. pose proof (R b ltac:(right; now left)) as Rb.
    pose proof (R c ltac:(right; right; now left)) as Rc.
    rewrite <- M, is_our_packed_spec. unfold pack_ext. replace ((a <=? 122) && (b <=? 122) && (c <=? 122)) with true by lia.
    rewrite (lor_shiftl_add a b 8) by (change (2 ^ 8) with 256; lia). rewrite lor_shiftl_add by (change (2 ^ 8) with 256; change (2 ^ 16) with 65536; lia). cbn [pack_le]. rewrite Z.mod_small by lia.
    replace (a + 256 * (b + 256 * (c + 256 * 0))) with (a + b * 2 ^ 8 + c * 2 ^ 16)
      by (change (2 ^ 8) with 256; change (2 ^ 16) with 65536; lia). reflexivity.
  - cbn [pack_ext]. split; [discriminate|]. intros I.
    destruct (supported_exts_shape _ I) as [(x1 & x2 & x3 & E & _)|(x1 & x2 & E & _)]; discriminate.
Qed.

(* ---- in the shape of the property theorems ---- *)
Lemma text_cases v : (meta_text v /\ check_valid_text v = true) \/ (~ meta_text v /\ check_valid_text v = false).
Proof.
  pose proof (check_valid_text_spec v) as S.
  destruct (check_valid_text v); [left|right]; split; intuition discriminate.
Qed.

Lemma set_author_spec self v :
  (meta_text v /\ api_set_author self v = (true, set_author v self)) \/ (~ meta_text v /\ api_set_author self v = (false, self)).
Proof. unfold api_set_author. destruct (text_cases v) as [[H ->]|[H ->]]; auto. Qed.

Lemma set_title_spec self v :
  (meta_text v /\ api_set_title self v = (true, set_title v self)) \/ (~ meta_text v /\ api_set_title self v = (false, self)).
Proof. unfold api_set_title. destruct (text_cases v) as [[H ->]|[H ->]]; auto. Qed.

Lemma set_date_spec self v :
  (meta_text v /\ api_set_date self v = (true, set_date v self)) \/ (~ meta_text v /\ api_set_date self v = (false, self)).
Proof. unfold api_set_date. destruct (text_cases v) as [[H ->]|[H ->]]; auto. Qed.

Lemma set_default_song_spec self song :
  (0 <= song < i_songs self /\ api_set_default_song self song = (true, set_defsong song self))
  \/ (~ 0 <= song < i_songs self /\ api_set_default_song self song = (false, self)).
Proof.
  unfold api_set_default_song.
  destruct ((song <? 0) || (i_songs self <=? song)) eqn:B; [right|left]; split; try reflexivity; lia.
Qed.

Lemma set_music_address_spec self v :
  (0 <= v <= 65534 /\ api_set_music_address self v = (true, set_music v self))
  \/ (~ 0 <= v <= 65534 /\ api_set_music_address self v = (false, self)).
Proof.
  unfold api_set_music_address.
  destruct ((v <? 0) || (65535 <=? v)) eqn:B; [right|left]; split; try reflexivity; lia.
Qed.

Lemma date_queries_valid self y m d : date_syntax (i_date self) y m d ->
  api_get_year self = Ok y /\ api_get_month self = Ok (or_minus_one m) /\ api_get_day self = Ok (or_minus_one d).
Proof. apply date_queries. Qed.

Lemma date_queries_invalid self : (forall y m d, ~ date_syntax (i_date self) y m d) ->
  api_get_year self = Ok (-1) /\ api_get_month self = Ok (-1) /\ api_get_day self = Ok (-1).
Proof. apply date_queries. Qed.

Lemma set_ntsc_full self ntsc : i_songs self <= len (i_durations self) ->
  exists self', api_set_ntsc self ntsc = Ok self'
  /\ i_ntsc self' = ntsc
  /\ i_fastplay self' = (if ntsc then 262 else 312)
  /\ length (i_durations self') = length (i_durations self)
  /\ (forall k, 0 <= k < len (i_durations self) ->
        let d := at_ (i_durations self) k in
        let d' := at_ (i_durations self') k in
        (i_songs self <= k \/ d <= 0 -> d' = d)
        /\ (ntsc = true -> k < i_songs self -> 0 < d <= 2147483647 -> d' = d * 5956963 / 7159090)
        /\ (ntsc = false -> k < i_songs self -> 0 < d <= 1786886410 -> d' = d * 7159090 / 5956963))
  /\ (i_filename self', i_author self', i_title self', i_date self', i_channels self', i_songs self',
      i_defsong self', i_loops self', i_type self')
   = (i_filename self, i_author self, i_title self, i_date self, i_channels self, i_songs self,
      i_defsong self, i_loops self, i_type self)
  /\ (i_music self', i_init self', i_player self', i_covox self', i_headerLen self', i_songPos self')
   = (i_music self, i_init self, i_player self, i_covox self, i_headerLen self, i_songPos self)
  /\ (i_type self = SAP_B <-> api_can_set_ntsc self' = true).
Proof.
  intros Hs. destruct (set_ntsc_spec self ntsc Hs) as (self' & E & H1 & H2 & H3 & H4 & H5 & H6).
  exists self'. split; [exact E|]. repeat (split; [assumption|]). split.
  { intros k Hk. cbv zeta. rewrite (H4 k Hk). repeat split; intros.
    - replace ((k <? i_songs self) && (0 <? at_ (i_durations self) k)) with false by lia. reflexivity.
    - replace ((k <? i_songs self) && (0 <? at_ (i_durations self) k)) with true by lia.
      rewrite H. apply to_ntsc_value. lia.
    - replace ((k <? i_songs self) && (0 <? at_ (i_durations self) k)) with true by lia.
      rewrite H. apply to_pal_value. lia. }
  split; [assumption|]. split; [assumption|].
  unfold api_can_set_ntsc. rewrite H1, H2. assert (T : i_type self' = i_type self) by congruence. rewrite T.
  rewrite Z.eqb_refl, andb_true_r. destruct (i_type self); cbn; intuition congruence.
Qed.

Lemma ntsc_long_duration : exists self self', i_songs self <= len (i_durations self)
    /\ at_ (i_durations self) 0 = 1786886411
    /\ api_set_ntsc self false = Ok self'
    /\ at_ (i_durations self') 0 < 0.
Proof.
  exists (mkInfo [] [] [] [] 1 1 0 (1786886411 :: repeat (-1) 31) (repeat false 32) true SAP_B 262 (-1) 0 0 (-1) 0 []).
  eexists. split; [vm_compute; discriminate|]. split; [reflexivity|]. split; [reflexivity|]. vm_compute. reflexivity.
Qed.
