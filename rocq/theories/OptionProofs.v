(* The command line of asapconv *)
From Coq Require Import String.
From Verif Require Import Base BaseFacts InfoModel InfoSpec DurationProofs InfoProofs OptionModel OptionSpec.

Lemma digit_of_ok base c d : 0 <= base <= 16 -> digit base c d -> digit_of base c = d.
Proof.
  intros B (R & H). unfold digit_of.
  destruct H as [[L ->]|[L [-> | ->]]].
  - replace ((48 <=? 48 + d) && (48 + d <=? 57)) with true by lia. replace (48 + d - 48) with d by lia. now replace (d <? base) with true by lia.
  - replace ((48 <=? 55 + d) && (55 + d <=? 57)) with false by lia. replace ((97 <=? 55 + d) && (55 + d <=? 122)) with false by lia. replace ((65 <=? 55 + d) && (55 + d <=? 90)) with true by lia.
    replace (55 + d - 55) with d by lia. now replace (d <? base) with true by lia.
  - replace ((48 <=? 87 + d) && (87 + d <=? 57)) with false by lia. replace ((97 <=? 87 + d) && (87 + d <=? 122)) with true by lia.
    replace (87 + d - 87) with d by lia. now replace (d <? base) with true by lia.
Qed.
Lemma digit_of_inv base c : (digit_of base c <? 0) = false -> digit base c (digit_of base c).
Proof.
  unfold digit_of, digit.
  destruct ((48 <=? c) && (c <=? 57)) eqn:E1; [|destruct ((97 <=? c) && (c <=? 122)) eqn:E2; [|destruct ((65 <=? c) && (c <=? 90)) eqn:E3]].
  - destruct (c - 48 <? base) eqn:L; lia.
  - destruct (c - 87 <? base) eqn:L; lia.
  - destruct (c - 55 <? base) eqn:L; lia.
  - destruct (-1 <? base) eqn:L; lia.
Qed.

Lemma value_nonneg base cs ds : 0 <= base -> Forall2 (digit base) cs ds -> 0 <= value base ds.
Proof.
  intros B F. induction F as [|c d cs ds (D & _) F IH]; [cbn; lia|]. cbn [value]. pose proof (Z.pow_nonneg base (len ds) B). nia.
Qed.

Lemma read_ok base cs ds : 0 <= base <= 16 -> Forall2 (digit base) cs ds -> forall acc, read_digits base acc cs = (acc * base ^ len ds + value base ds, []).
Proof.
  intros B F. induction F as [|c d cs ds D F IH]; intros acc; cbn [read_digits value].
  - change (len (@nil Z)) with 0. rewrite Z.pow_0_r. f_equal. lia.
  - rewrite (digit_of_ok base c d B D). destruct D as (D & _). replace (d <? 0) with false by lia. rewrite IH. f_equal.
    replace (len (d :: ds)) with (1 + len ds) by (unfold len; cbn [List.length]; lia). rewrite Z.pow_add_r by (unfold len; lia). rewrite Z.pow_1_r. ring.
Qed.
Lemma read_inv base s : 0 <= base <= 16 -> forall acc v, read_digits base acc s = (v, []) -> exists ds, Forall2 (digit base) s ds.
Proof.
  intros B. induction s as [|c s IH]; intros acc v H; cbn [read_digits] in H; [exists []; constructor|].
  destruct (digit_of base c <? 0) eqn:D; [discriminate|]. destruct (IH _ _ H) as (ds & F). exists (digit_of base c :: ds). constructor; [now apply digit_of_inv|exact F].
Qed.

Lemma blank_iff c : is_space c = true <-> blank c.
Proof. unfold is_space, blank. lia. Qed.
Lemma skip_ok sp t : Forall blank sp -> (forall c r, t = c :: r -> is_space c = false) -> skip_spaces (sp ++ t) = t.
Proof.
  intros F H. induction F as [|c sp B F IH]; cbn [app skip_spaces].
  - destruct t as [|c r]; [reflexivity|]. cbn [skip_spaces]. now rewrite (H c r eq_refl).
  - now rewrite (proj2 (blank_iff c) B).
Qed.
Lemma skip_inv s : exists sp, Forall blank sp /\ s = sp ++ skip_spaces s.
Proof.
  induction s as [|c s (sp & F & E)]; [exists []; split; [constructor|reflexivity]|]. cbn [skip_spaces]. destruct (is_space c) eqn:S.
  - exists (c :: sp). split; [constructor; [now apply blank_iff|exact F]|]. cbn [app]. now rewrite <- E.
  - exists []. split; [constructor|reflexivity].
Qed.

Definition take_sign (t : list Z) : bool * list Z :=
  match t with
  | c :: r => if c =? 45 then (true, r) else if c =? 43 then (false, r) else (false, t)
  | [] => (false, t)
  end.
Definition take_prefix (base : Z) (t : list Z) : list Z :=
  match t with
  | z :: x :: d :: r => if (base =? 16) && (z =? 48) && ((x =? 120) || (x =? 88)) && (0 <=? digit_of 16 d) then d :: r else t
  | _ => t
  end.
Lemma strtol_eq lm base s : strtol lm base s =
  (let u := take_sign (skip_spaces s) in
   match take_prefix base (snd u) with
   | c :: r => if digit_of base c <? 0 then (0, s) else
       let w := read_digits base 0 (c :: r) in (if fst u then Z.max (- lm - 1) (- fst w) else Z.min lm (fst w), snd w)
   | [] => (0, s)
   end).
Proof.
  unfold strtol. fold (take_sign (skip_spaces s)). destruct (take_sign (skip_spaces s)) as [n t]. cbn [fst snd].
  fold (take_prefix base t). cbn zeta. destruct (take_prefix base t) as [|c r]; [reflexivity|]. destruct (digit_of base c <? 0); [reflexivity|]. now destruct (read_digits base 0 (c :: r)) as [v e].
Qed.

Lemma prefix_ok base px cs ds : base = 10 \/ base = 16 -> (px = [] \/ base = 16 /\ (px = [48; 120] \/ px = [48; 88])) -> cs <> [] -> Forall2 (digit base) cs ds -> take_prefix base (px ++ cs) = cs.
Proof.
  intros B P N F. destruct F as [|c d cs ds D F]; [congruence|]. destruct P as [-> | (-> & P)].
  - cbn [app]. unfold take_prefix. destruct F as [|c2 d2 cs ds D2 F]; [reflexivity|]. destruct F as [|c3 d3 cs ds D3 F]; [reflexivity|].
    replace ((c2 =? 120) || (c2 =? 88)) with false by (unfold digit in D2; lia). now rewrite andb_false_r.
  - assert (E : (0 <=? digit_of 16 c) = true) by (rewrite (digit_of_ok 16 c d ltac:(lia) D); destruct D; lia).
    destruct P as [-> | ->]; cbn [app take_prefix]; rewrite E; reflexivity.
Qed.

Lemma parse_ok lm s base v max : base = 10 \/ base = 16 -> max <= lm -> 0 <= lm -> numeral base s v -> v <= max -> parse_int lm s base max = Ok v.
Proof.
  intros B LM L0 (sp & sg & px & cs & ds & -> & SP & SG & PX & N & F & V) M.
  assert (B' : 0 <= base <= 16) by lia.
  pose proof (value_nonneg base cs ds ltac:(lia) F) as V0. rewrite <- V in V0.
  assert (T : forall t, t = px ++ cs -> exists c r, t = c :: r /\ 48 <= c).
  { intros t ->. destruct PX as [-> | (_ & [-> | ->])]; cbn [app]; [|eexists _, _; split; [reflexivity|lia]..]. destruct F as [|c d cs ds D F]; [congruence|]. exists c, cs. split; [reflexivity|]. unfold digit in D. lia. }
  destruct (T _ eq_refl) as (c0 & r0 & E0 & C0).
  assert (SK : skip_spaces (sp ++ sg ++ px ++ cs) = sg ++ px ++ cs).
  { apply skip_ok; [exact SP|]. intros c r E. unfold is_space. destruct SG as [-> | [-> | (-> & _)]]; cbn [app] in E; [|injection E as <- _; reflexivity..]. rewrite E0 in E. injection E as <- _. lia. }
  assert (TS : take_sign (sg ++ px ++ cs) = (match sg with [45] => true | _ => false end, px ++ cs)).
  { destruct SG as [-> | [-> | (-> & _)]]; cbn [app take_sign]; [|reflexivity..]. rewrite E0. cbn [take_sign]. now replace (c0 =? 45) with false by lia; replace (c0 =? 43) with false by lia. }
  assert (S : strtol lm base (sp ++ sg ++ px ++ cs) = (v, [])).
  { rewrite strtol_eq. cbn zeta. rewrite SK, TS. cbn [fst snd]. rewrite (prefix_ok base px cs ds B PX N F). destruct F as [|c d cs ds D F]; [congruence|].
    rewrite (digit_of_ok base c d B' D). replace (d <? 0) with false by (destruct D; lia). rewrite (read_ok base (c :: cs) (d :: ds) B' (Forall2_cons _ _ D F) 0). cbn [fst snd].
    rewrite Z.mul_0_l, Z.add_0_l, <- V. f_equal. destruct SG as [-> | [-> | (-> & Z0)]]; lia. }
  unfold parse_int. rewrite S. assert (Q : sp ++ sg ++ px ++ cs <> []) by (rewrite E0; destruct sp; [destruct sg|]; discriminate).
  destruct (sp ++ sg ++ px ++ cs); [congruence|]. now replace ((v <? 0) || (max <? v)) with false by lia.
Qed.

Lemma parse_inv lm s base v max : base = 10 \/ base = 16 -> max < lm -> parse_int lm s base max = Ok v -> numeral base s v /\ 0 <= v <= max.
Proof.
  intros B LM H. assert (B' : 0 <= base <= 16) by lia. unfold parse_int in H. destruct s as [|a0 s0] eqn:ES; [discriminate|]. rewrite <- ES in *.
  destruct (strtol lm base s) as [r e] eqn:S. destruct e as [|e0 e1]; [|discriminate]. destruct ((r <? 0) || (max <? r)) eqn:R; [discriminate|]. injection H as <-.
  split; [|lia]. rewrite strtol_eq in S. cbn zeta in S. destruct (skip_inv s) as (sp & SP & E).
  remember (skip_spaces s) as t eqn:Et. clear Et.
  destruct (take_prefix base (snd (take_sign t))) as [|c q] eqn:P; [exfalso; injection S as _ S; congruence|].
  destruct (digit_of base c <? 0) eqn:D; [exfalso; injection S as _ S; congruence|].
  destruct (read_digits base 0 (c :: q)) as [w e] eqn:RD. cbn [fst snd] in S. injection S as S ->.
  destruct (read_inv base (c :: q) B' _ _ RD) as (ds & F). pose proof (value_nonneg base _ _ ltac:(lia) F) as V0.
  rewrite (read_ok base _ _ B' F), Z.mul_0_l, Z.add_0_l in RD. apply (f_equal fst) in RD. cbn [fst] in RD.
  assert (PX : exists px, snd (take_sign t) = px ++ c :: q /\ (px = [] \/ base = 16 /\ (px = [48; 120] \/ px = [48; 88]))).
  { unfold take_prefix in P. destruct (snd (take_sign t)) as [|z [|x [|d u]]]; try (rewrite P; exists []; split; [reflexivity|now left]).
    destruct ((base =? 16) && (z =? 48) && ((x =? 120) || (x =? 88)) && (0 <=? digit_of 16 d)) eqn:C.
    - injection P as -> ->. rewrite !andb_true_iff, orb_true_iff, !Z.eqb_eq in C. destruct C as (((C1 & ->) & C2) & _). exists [48; x]. split; [reflexivity|]. right. split; [exact C1|]. destruct C2 as [-> | ->]; auto.
    - rewrite P. exists []. split; [reflexivity|now left]. }
  destruct PX as (px & EP & PX).
  assert (SG : exists sg, t = sg ++ snd (take_sign t) /\ (sg = [] \/ sg = [43] \/ sg = [45] /\ r = 0)).
  { destruct t as [|z u]; [exists []; split; [reflexivity|now left]|]. cbn [take_sign] in *. destruct (z =? 45) eqn:Z1; [|destruct (z =? 43) eqn:Z2]; cbn [fst snd] in *.
    - apply Z.eqb_eq in Z1. subst z. exists [45]. split; [reflexivity|]. right; right. split; [reflexivity|]. lia.
    - apply Z.eqb_eq in Z2. subst z. exists [43]. split; [reflexivity|]. auto.
    - exists []. split; [reflexivity|now left]. }
  destruct SG as (sg & EG & SG). exists sp, sg, px, (c :: q), ds. repeat split; try assumption; [now rewrite <- EP, <- EG|discriminate|].
  destruct (fst (take_sign t)) eqn:FS; [|lia].
  destruct SG as [-> | [-> | (-> & Z0)]]; [exfalso; clear - EG FS; cbn [app] in EG| |lia].
  - destruct t as [|z u]; [discriminate|]. cbn [take_sign] in *. destruct (z =? 45); cbn [snd] in *; [|destruct (z =? 43); discriminate]. apply (f_equal (@List.length Z)) in EG. cbn in EG. lia.
  - exfalso. clear - EG FS. rewrite EG in FS. cbn in FS. discriminate.
Qed.

(* the mask of muted channels *)
Lemma mute_bit s : forall m i, 0 <= i -> Z.testbit (mute_mask s m) i = (Z.testbit m i || ((i <? 8) && existsb (Z.eqb (49 + i)) s)).
Proof.
  induction s as [|c s IH]; intros m i I; cbn [mute_mask existsb]; [now rewrite andb_false_r, orb_false_r|]. rewrite IH by exact I.
  destruct ((49 <=? c) && (c <=? 56)) eqn:C.
  - rewrite Z.lor_spec, Z.shiftl_spec by exact I. replace (Z.testbit 1 (i - (c - 49))) with (49 + i =? c).
    + destruct (49 + i =? c) eqn:E; [|now rewrite orb_false_r]. replace (i <? 8) with true by lia. cbn [orb andb]. now rewrite !orb_true_r.
    + destruct (49 + i =? c) eqn:E; [replace (i - (c - 49)) with 0 by lia; reflexivity|]. symmetry. destruct (Z.ltb_spec (i - (c - 49)) 0); [now apply Z.testbit_neg_r|]. apply Z.bits_above_log2; [lia|]. change (Z.log2 1) with 0. lia.
  - destruct (i <? 8) eqn:L; [|reflexivity]. now replace (49 + i =? c) with false by lia.
Qed.
Lemma muted_bit s i : 0 <= i -> Z.testbit (muted_by s) i = ((i <? 8) && existsb (Z.eqb (49 + i)) s).
Proof.
  intros I. unfold muted_by. cbn [map fold_right]. rewrite !Z.lor_spec, Z.bits_0.
  assert (K : forall c, Z.testbit (if existsb (Z.eqb (48 + c)) s then 2 ^ (c - 1) else 0) i = ((i =? c - 1) && existsb (Z.eqb (49 + i)) s)).
  { intros c. destruct (i =? c - 1) eqn:E.
    - replace (49 + i) with (48 + c) by lia. replace (c - 1) with i by lia. destruct (existsb _ s); [now rewrite Z.pow2_bits_true|apply Z.bits_0].
    - destruct (existsb (Z.eqb (48 + c)) s); [|apply Z.bits_0]. apply Z.pow2_bits_false. lia. }
  rewrite !K. destruct (existsb (Z.eqb (49 + i)) s); rewrite ?andb_false_r, ?andb_true_r; [|reflexivity]. lia.
Qed.
Lemma mute_ok s m : mute_mask s m = Z.lor m (muted_by s).
Proof. apply Z.bits_inj'. intros i I. rewrite Z.lor_spec, mute_bit, muted_bit by exact I. reflexivity. Qed.

(* the setters *)
Lemma song_ok lm s n o : 2147483647 <= lm -> numeral 10 s n -> n <= 31 -> set_song lm s o = Ok (with_song n o).
Proof. intros L N B. unfold set_song. rewrite (parse_ok lm s 10 n (32 - 1)) by (auto; lia). reflexivity. Qed.
Lemma rate_ok lm s n o : 2147483647 <= lm -> numeral 10 s n -> n <= 256000 -> set_sample_rate lm s o = Ok (with_rate n o).
Proof. intros L N B. unfold set_sample_rate. rewrite (parse_ok lm s 10 n 256000) by (auto; lia). reflexivity. Qed.
Lemma time_ok s ms o : duration_syntax s ms -> 0 < ms -> set_time s o = Ok (with_duration ms o).
Proof. intros S B. unfold set_time. rewrite (proj2 (parse_duration_spec s ms) S). cbn [bind]. now replace (ms <=? 0) with false by lia. Qed.
Lemma numeral_no_dollar base s v : base <= 16 -> numeral base (36 :: s) v -> False.
Proof.
  intros B (sp & sg & px & cs & ds & E & SP & SG & PX & N & F & _).
  destruct SP as [|c sp Bc SP]; cbn [app] in E; [|injection E as <- _; unfold blank in Bc; lia].
  destruct SG as [-> | [-> | (-> & _)]]; cbn [app] in E; [|discriminate..].
  destruct PX as [-> | (_ & [-> | ->])]; cbn [app] in E; [|discriminate..].
  destruct F as [|c d cs ds D F]; [discriminate|]. injection E as <- _. unfold digit in D. lia.
Qed.
Lemma address_ok lm s n o : 2147483647 <= lm -> (exists t, (s = t \/ s = 36 :: t) /\ numeral 16 t n) -> n <= 65535 -> set_music_address lm s o = Ok (with_address n o).
Proof.
  intros L (t & E & N) B. unfold set_music_address.
  assert (X : match s with c :: r => if c =? 36 then r else s | [] => s end = t).
  { destruct E as [-> | ->]; [|reflexivity]. destruct t as [|c r]; [reflexivity|]. destruct (c =? 36) eqn:C; [|reflexivity]. apply Z.eqb_eq in C. subst c. exfalso. exact (numeral_no_dollar 16 r n ltac:(lia) N). }
  rewrite X, (parse_ok lm t 16 n 65535) by (auto; lia). reflexivity.
Qed.

(* one item *)
Lemma item_ok lm i rest o e : 2147483647 <= lm -> accepted i ->
  main_loop lm (written i ++ rest) o e =
  match i with
  | File name => '(files, code) <- main_loop lm rest (with_name None o) false ;; Ok ((name, o) :: files, code)
  | Short p | Long p => main_loop lm rest (meaning p o) true
  | BareRate s n => main_loop lm rest (meaning (ORate s n) o) true
  | _ => main_loop lm rest o false
  end.
Proof.
  intros L [G|(s & n & -> & G1 & G2)].
  2: { transitivity (o' <- set_sample_rate lm s o ;; main_loop lm rest o' true); [reflexivity|]. now rewrite (rate_ok lm s n o L G1 G2). }
  destruct i as [name|p|p| | | | |]; [| | |reflexivity..|contradiction].
  - cbn [written app main_loop good] in *. replace (match name with c :: _ => c =? 45 | [] => false end) with false; [reflexivity|]. destruct name as [|c r]; [reflexivity|]. cbn [hd] in G. lia.
  - destruct G as (G & X). destruct p; try contradiction; cbn [good_opt meaning] in *; try reflexivity.
    + destruct G as (G1 & G2). transitivity (o' <- set_song lm s o ;; main_loop lm rest o' true); [reflexivity|]. now rewrite (song_ok lm s n o L G1 G2).
    + destruct G as (G1 & G2). transitivity (o' <- set_time s o ;; main_loop lm rest o' true); [reflexivity|]. now rewrite (time_ok s ms o G1 G2).
    + destruct G as (G1 & G2). transitivity (o' <- set_sample_rate lm s o ;; main_loop lm rest o' true); [reflexivity|]. now rewrite (rate_ok lm s n o L G1 G2).
    + rewrite <- mute_ok. reflexivity.
  - destruct G as (G & X). destruct p; try contradiction; cbn [good_opt meaning] in *; try reflexivity.
    + destruct G as (G1 & G2). transitivity (o' <- set_song lm s o ;; main_loop lm rest o' true); [reflexivity|]. now rewrite (song_ok lm s n o L G1 G2).
    + destruct G as (G1 & G2). transitivity (o' <- set_time s o ;; main_loop lm rest o' true); [reflexivity|]. now rewrite (time_ok s ms o G1 G2).
    + rewrite <- mute_ok. reflexivity.
    + destruct G as (G1 & G2). transitivity (o' <- set_music_address lm s o ;; main_loop lm rest o' true); [reflexivity|]. now rewrite (address_ok lm s n o L G1 G2).
Qed.

Lemma main_ok lm l : 2147483647 <= lm -> Forall accepted l -> forall o d,
  main_loop lm (List.concat (map written l)) o (match d with Short _ | Long _ | BareRate _ _ => true | _ => false end) =
  Ok (conversions l o, match last l d with Short _ | Long _ | BareRate _ _ => 1 | _ => 0 end).
Proof.
  intros L F. induction F as [|i l G F IH]; intros o d; [cbn; now destruct d|].
  cbn [map List.concat]. rewrite (item_ok lm i _ o _ L G).
  replace (last (i :: l) d) with (last l i).
  2: { clear. revert i d. induction l as [|j l IH]; intros i d; [reflexivity|]. change (last (i :: j :: l) d) with (last (j :: l) d). now rewrite <- (IH j i), <- (IH j d). }
  destruct i; cbn [conversions].
  - rewrite (IH _ (File name)). reflexivity.
  - apply (IH _ (Short o0)).
  - apply (IH _ (Long o0)).
  - apply (IH _ Help).
  - apply (IH _ LongHelp).
  - apply (IH _ Version).
  - apply (IH _ LongVersion).
  - apply (IH _ (BareRate s n)).
Qed.

(* "=" does not start a number *)
Lemma rate_fails lm v rest o e : main_loop lm ((str "--sample-rate="%string ++ v) :: rest) o e = Fail.
Proof.
  transitivity (o' <- set_sample_rate lm (61 :: v) o ;; main_loop lm rest o' true); [reflexivity|].
  unfold set_sample_rate, parse_int. rewrite strtol_eq. cbn zeta. replace (skip_spaces (61 :: v)) with (61 :: v) by reflexivity. replace (take_sign (61 :: v)) with (false, 61 :: v) by reflexivity. cbn [fst snd].
  replace (take_prefix 10 (61 :: v)) with (61 :: v) by (destruct v as [|x [|d r]]; reflexivity). reflexivity.
Qed.

(* the other way round: what is accepted *)
Lemma after_some p : forall arg v, after p arg = Some v -> arg = p ++ v.
Proof.
  induction p as [|x p IH]; intros arg v H; [now injection H as <-|]. destruct arg as [|a arg]; [discriminate|]. cbn [after] in H.
  destruct (a =? x) eqn:E; [|discriminate]. apply Z.eqb_eq in E. subst a. cbn [app]. f_equal. now apply IH.
Qed.
Lemma song_inv lm s o o' : 2147483647 <= lm -> set_song lm s o = Ok o' -> exists n, good_opt (OSong s n) /\ o' = meaning (OSong s n) o.
Proof.
  intros L H. unfold set_song in H. destruct (parse_int lm s 10 (32 - 1)) as [n| | |] eqn:P; try discriminate. injection H as <-.
  destruct (parse_inv lm s 10 n (32 - 1) (or_introl eq_refl) ltac:(lia) P) as (N & B). exists n. repeat split; [exact N|lia].
Qed.
Lemma rate_inv lm s o o' : 2147483647 <= lm -> set_sample_rate lm s o = Ok o' -> exists n, good_opt (ORate s n) /\ o' = meaning (ORate s n) o.
Proof.
  intros L H. unfold set_sample_rate in H. destruct (parse_int lm s 10 256000) as [n| | |] eqn:P; try discriminate. injection H as <-.
  destruct (parse_inv lm s 10 n 256000 (or_introl eq_refl) ltac:(lia) P) as (N & B). exists n. repeat split; [exact N|lia].
Qed.
Lemma time_inv s o o' : set_time s o = Ok o' -> exists ms, good_opt (OTime s ms) /\ o' = meaning (OTime s ms) o.
Proof.
  intros H. unfold set_time in H. destruct (parse_duration s) as [d| | |] eqn:P; try discriminate. cbn [bind] in H. destruct (d <=? 0) eqn:D; [discriminate|]. injection H as <-.
  exists d. repeat split; [now apply parse_duration_spec|lia].
Qed.
Lemma mute_inv s o o' : set_mute_mask s o = Ok o' -> o' = meaning (OMute s) o.
Proof. intros H. unfold set_mute_mask in H. injection H as <-. cbn [meaning]. now rewrite mute_ok. Qed.
Lemma address_inv lm s o o' : 2147483647 <= lm -> set_music_address lm s o = Ok o' -> exists n, good_opt (OAddress s n) /\ o' = meaning (OAddress s n) o.
Proof.
  intros L H. unfold set_music_address in H. set (t := match s with c :: r => if c =? 36 then r else s | [] => s end) in *.
  destruct (parse_int lm t 16 65535) as [n| | |] eqn:P; try discriminate. injection H as <-.
  destruct (parse_inv lm t 16 n 65535 (or_intror eq_refl) ltac:(lia) P) as (N & B). exists n. repeat split; [|lia]. exists t. split; [|exact N].
  subst t. destruct s as [|c r]; [now left|]. destruct (c =? 36) eqn:E; [right; f_equal; lia|now left].
Qed.

Definition is_dangling (arg : list Z) : Prop := In arg [str "-o"; str "-a"; str "-n"; str "-d"]%string.
Definition effect (i : item) (o : options) : options :=
  match i with Short p | Long p => meaning p o | BareRate s n => meaning (ORate s n) o | _ => o end.
Definition sets (i : item) : Prop := match i with Short _ | Long _ | BareRate _ _ => True | _ => False end.
Definition tells (i : item) : Prop := match i with Help | LongHelp | Version | LongVersion => True | _ => False end.
Definition read_as (arg : list Z) (r : reading) : Prop :=
  match r with
  | Info => exists i, tells i /\ accepted i /\ written i = [arg]
  | Done m => forall o o', m o = Ok o' -> exists i, sets i /\ accepted i /\ written i = [arg] /\ o' = effect i o
  | Value f => (forall v o o', f (Some v) o = Ok o' -> exists i, sets i /\ accepted i /\ written i = [arg; v] /\ o' = effect i o) /\
               (forall o o', f None o = Ok o' -> is_dangling arg)
  end.

Ltac witness i := exists i; split; [exact I|]; split; [left; split; [first [assumption|exact I]|exact I]|]; split; [reflexivity|]; first [assumption|reflexivity].
Ltac next C := match goal with
  | |- (if ?b then _ else _) = Ok _ -> _ => destruct b eqn:C
  | |- match ?a with Some _ => _ | None => _ end = Ok _ -> _ => destruct a eqn:C; [apply after_some in C|clear C]
  end.

Lemma read_option_inv lm arg r : 2147483647 <= lm -> read_option lm arg = Ok r -> read_as arg r.
Proof.
  intros L. unfold read_option, is_opt.
  next C. { apply eqb_list_spec in C. subst arg. intros [= <-]. split; [|intros; cbn; auto]. intros v o o' [= <-]. witness (Short (OOutput v)). } clear C.
  next C. { subst arg. intros [= <-] o o' [= <-]. witness (Long (OOutput l)). }
  next C. { apply eqb_list_spec in C. subst arg. intros [= <-]. split; [|discriminate]. intros v o o' H. destruct (song_inv _ _ _ _ L H) as (n & G & E). witness (Short (OSong v n)). } clear C.
  next C. { subst arg. intros [= <-] o o' H. destruct (song_inv _ _ _ _ L H) as (n & G & E). witness (Long (OSong l n)). }
  next C. { apply eqb_list_spec in C. subst arg. intros [= <-]. split; [|discriminate]. intros v o o' H. destruct (time_inv _ _ _ H) as (n & G & E). witness (Short (OTime v n)). } clear C.
  next C. { subst arg. intros [= <-] o o' H. destruct (time_inv _ _ _ H) as (n & G & E). witness (Long (OTime l n)). }
  next C. { apply orb_true_iff in C. intros [= <-] o o' [= <-]. destruct C as [C|C]; apply eqb_list_spec in C; subst arg; [witness (Short OByte)|witness (Long OByte)]. } clear C.
  next C. { apply orb_true_iff in C. intros [= <-] o o' [= <-]. destruct C as [C|C]; apply eqb_list_spec in C; subst arg; [witness (Short OWord)|witness (Long OWord)]. } clear C.
  next C. { apply eqb_list_spec in C. subst arg. intros [= <-]. split; [|discriminate]. intros v o o' H. destruct (rate_inv _ _ _ _ L H) as (n & G & E). witness (Short (ORate v n)). } clear C.
  next C. { subst arg. intros [= <-] o o' H. destruct (rate_inv _ _ _ _ L H) as (n & G & E). exists (BareRate l n). repeat split; [|exact E]. right. exists l, n. split; [reflexivity|exact G]. }
  next C. { apply eqb_list_spec in C. subst arg. intros [= <-]. split; [|discriminate]. intros v o o' H. apply mute_inv in H. witness (Short (OMute v)). } clear C.
  next C. { subst arg. intros [= <-] o o' H. apply mute_inv in H. witness (Long (OMute l)). }
  next C. { apply eqb_list_spec in C. subst arg. intros [= <-]. split; [|intros; cbn; auto]. intros v o o' [= <-]. witness (Short (OAuthor v)). } clear C.
  next C. { subst arg. intros [= <-] o o' [= <-]. witness (Long (OAuthor l)). }
  next C. { apply eqb_list_spec in C. subst arg. intros [= <-]. split; [|intros; cbn; auto]. intros v o o' [= <-]. witness (Short (OName v)). } clear C.
  next C. { subst arg. intros [= <-] o o' [= <-]. witness (Long (OName l)). }
  next C. { apply eqb_list_spec in C. subst arg. intros [= <-]. split; [|intros; cbn; auto]. intros v o o' [= <-]. witness (Short (ODate v)). } clear C.
  next C. { subst arg. intros [= <-] o o' [= <-]. witness (Long (ODate l)). }
  next C. { apply eqb_list_spec in C. subst arg. intros [= <-] o o' [= <-]. witness (Long OTag). } clear C.
  next C. { apply eqb_list_spec in C. subst arg. intros [= <-] o o' [= <-]. witness (Long ONtsc). } clear C.
  next C. { apply eqb_list_spec in C. subst arg. intros [= <-] o o' [= <-]. witness (Long OPal). } clear C.
  next C. { subst arg. intros [= <-] o o' H. destruct (address_inv _ _ _ _ L H) as (n & G & E). witness (Long (OAddress l n)). }
  next C. { apply orb_true_iff in C. intros [= <-]. destruct C as [C|C]; apply eqb_list_spec in C; subst arg; [exists Help|exists LongHelp]; (split; [exact I|split; [left; exact I|reflexivity]]). } clear C.
  next C. { apply orb_true_iff in C. intros [= <-]. destruct C as [C|C]; apply eqb_list_spec in C; subst arg; [exists Version|exists LongVersion]; (split; [exact I|split; [left; exact I|reflexivity]]). } clear C.
  discriminate.
Qed.

Lemma main_inv lm : 2147483647 <= lm -> forall k args o e r, (List.length args <= k)%nat -> main_loop lm args o e = Ok r ->
  exists l tail, Forall accepted l /\ args = List.concat (map written l) ++ tail /\ (tail = [] \/ exists arg, tail = [arg] /\ is_dangling arg).
Proof.
  intros L. induction k as [|k IH]; intros args o e r K H.
  - destruct args; [|cbn in K; lia]. exists [], []. repeat split; auto.
  - destruct args as [|arg rest]; [exists [], []; repeat split; auto|]. cbn [List.length] in K. cbn [main_loop] in H.
    assert (Q : forall i x, (accepted i) -> written i = x -> forall rest' o' e' r', (List.length rest' <= k)%nat -> main_loop lm rest' o' e' = Ok r' ->
      exists l tail, Forall accepted l /\ x ++ rest' = List.concat (map written l) ++ tail /\ (tail = [] \/ exists arg, tail = [arg] /\ is_dangling arg)).
    { intros i x A W rest' o' e' r' K' H'. destruct (IH _ _ _ _ K' H') as (l & tail & F & E & T). exists (i :: l), tail. split; [now constructor|]. split; [|exact T]. cbn [map List.concat]. now rewrite W, <- app_assoc, <- E. }
    destruct (match arg with c :: _ => c =? 45 | [] => false end) eqn:D; cbn [negb] in H.
    + destruct (read_option lm arg) as [rd| | |] eqn:R; try discriminate. cbn [bind] in H. apply (read_option_inv lm arg rd L) in R. destruct rd as [f|m|]; cbn [read_as] in R.
      * destruct R as (R1 & R2). destruct rest as [|v rest].
        -- destruct (f None o) as [o'| | |] eqn:X; try discriminate. exists [], [arg]. split; [constructor|]. split; [reflexivity|]. right. exists arg. split; [reflexivity|]. exact (R2 _ _ X).
        -- destruct (f (Some v) o) as [o'| | |] eqn:X; try discriminate. cbn [bind] in H. destruct (R1 _ _ _ X) as (i & _ & A & W & _). cbn [List.length] in K. exact (Q i _ A W rest _ _ _ ltac:(lia) H).
      * destruct (m o) as [o'| | |] eqn:X; try discriminate. cbn [bind] in H. destruct (R _ _ X) as (i & _ & A & W & _). exact (Q i _ A W rest _ _ _ ltac:(lia) H).
      * destruct R as (i & _ & A & W). exact (Q i _ A W rest _ _ _ ltac:(lia) H).
    + destruct (main_loop lm rest (with_name None o) false) as [x| | |] eqn:X; try discriminate.
      refine (Q (File arg) [arg] (or_introl _) eq_refl rest _ _ _ ltac:(lia) X). cbn [good]. destruct arg as [|c a]; cbn [hd]; lia.
Qed.

(* an option at the end that needs a value and gets none *)
Lemma main_dangling lm l arg : 2147483647 <= lm -> Forall accepted l -> is_dangling arg -> forall o e,
  main_loop lm (List.concat (map written l) ++ [arg]) o e = Ok (conversions l o, 1).
Proof.
  intros L F D. induction F as [|i l G F IH]; intros o e.
  - cbn [map List.concat app conversions]. unfold is_dangling in D. cbn [In] in D. destruct D as [<-|[<-|[<-|[<-|[]]]]]; reflexivity.
  - cbn [map List.concat]. rewrite <- app_assoc, (item_ok lm i _ o _ L G). destruct i; cbn [conversions]; try apply IH. now rewrite IH.
Qed.
