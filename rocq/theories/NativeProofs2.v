(* Native parsers, part 2: MPT, TMC, TM2, RMT.  These may read outside the module and overflow;
   shown here: they write inside their arrays, and (except RMT) terminate. *)
From Coq Require Import String.
From Verif Require Import Base BaseFacts InfoModel InfoSpec Loop NativeModel NativeSpec InfoProofs SapProofs NativeProofs.

Section Common.
Variable B : ub_reason -> Prop.
Variable F : Prop.
Hypothesis Bovf : B UbOverflow.
Hypothesis Bread : B UbRead.
Variable module : list Z.
Hypothesis Hb : bytes module.

(* what remains of the module after an offset *)
Definition left_ (off : Z) : Z := if off <? 0 then 0 else Z.max 0 (len module - off).

Lemma left_range off : 0 <= left_ off <= len module.
Proof. unfold left_. pose proof (len_nonneg module). destruct (Z.ltb_spec off 0); lia. Qed.

Lemma left_step off off' : 0 <= off < len module -> off < off' -> left_ off' < left_ off.
Proof. unfold left_. intros. destruct (Z.ltb_spec off 0); [lia|]. destruct (Z.ltb_spec off' 0); lia. Qed.

Lemma mark_seen_len n seen : 0 <= n -> len (mark_seen n seen) = len seen.
Proof. intros H. unfold mark_seen. rewrite len_app, len_map, <- len_app, firstn_skipn. reflexivity. Qed.

Lemma mark_seen_zeros n seen : zeros (mark_seen n seen) = zeros seen.
Proof.
  unfold mark_seen. rewrite zeros_app, zeros_map, <- zeros_app, firstn_skipn; [reflexivity|].
  intros x. destruct (Z.eqb_spec x 1); lia.
Qed.

Lemma songs_by_pos_wpg (parse : info -> list Z -> Z -> outcome (info * list Z)) b n pos s D L P seen (Q : info -> Prop) :
  (forall s D L P seen pos, s < 32 -> songs_ok s D L P -> len seen = 256 -> 0 <= pos < 256 ->
     wpg B F (parse (prog b s D L P) seen pos) (fun r => exists s' D' L' P', fst r = prog b s' D' L' P' /\ songs_ok s' D' L' P' /\ len (snd r) = 256)) ->
  len seen = 256 -> 0 <= pos -> pos + Z.of_nat n <= 256 -> songs_ok s D L P ->
  (forall s' D' L' P', songs_ok s' D' L' P' -> Q (prog b s' D' L' P')) ->
  wpg B F (songs_by_pos parse (prog b s D L P) seen n pos) Q.
Proof.
  intros Hparse Hseen Hp Hn Hok HQ. revert pos s D L P seen Hseen Hp Hn Hok.
  induction n as [|n IH]; intros pos s D L P seen Hseen Hp Hn Hok; cbn [songs_by_pos]; [now apply HQ|].
  change (i_songs (prog b s D L P)) with s. destruct (Z.ltb_spec s 32); [|now apply HQ].
  apply wpg_bind, wpg_get; [intros _|left; lia]. apply wpg_bind. destruct (_ =? 0).
  - apply wpg_bind, wpg_set_pos; [assumption|assumption|]. intros P' HP'.
    eapply wpg_mono; [apply Hparse; [assumption|eauto using songs_ok_pos|assumption|lia]|].
    intros [inf seen'] (s' & D' & L' & P2 & E & Hok' & Hl'). cbn [fst snd] in *. subst inf. apply IH; (assumption || lia).
  - cbn [wpg]. apply IH; (assumption || lia).
Qed.

(* ------------------------------------------------------------------ *)
(* MPT *)
Variable fuel : nat.
Hypothesis Hfuel : F \/ len module <= Z.of_nat fuel /\ 256 <= Z.of_nat fuel.

Lemma fuel_len x : x <= len module -> F \/ x <= Z.of_nat fuel.
Proof. intros. destruct Hfuel as [?|[]]; [now left|right; lia]. Qed.

Lemma fuel_256 x : x <= 256 -> F \/ x <= Z.of_nat fuel.
Proof. intros. destruct Hfuel as [?|[]]; [now left|right; lia]. Qed.

Lemma mpt_notes_wpg off blank tempo rows (Q : Z * Z * Z * Z -> Prop) : 0 <= tempo -> 0 <= rows ->
  (forall off' blank' tempo' rows', 0 <= tempo' -> 0 <= rows' <= rows -> Q (off', blank', tempo', rows')) ->
  wpg B F (loop fuel (mpt_note_step module) (off, blank, tempo, rows)) Q.
Proof.
  intros Ht Hr HQ.
  apply (loop_wpg B F (mpt_note_step module) (fun x => let '(o, b, t, r) := x in 0 <= t /\ 0 <= r <= rows) (fun x => left_ (fst (fst (fst x)))) Q).
  - intros x _. apply left_range.
  - intros [[[o b] t] r] [H1 H2]. unfold mpt_note_step. apply wpg_bind, wpg_get; [intros R|now right].
    pose proof (left_step o (o + 1) R ltac:(lia)). set (i := at_ module o) in *. clearbody i. cbv zeta. cbn [fst].
    destruct (_ || _); [apply HQ; lia|].
    repeat match goal with |- context [if ?x <? ?y then _ else _] => destruct (Z.ltb_spec x y) end; cbn [wpg continue_ fst]; (split; [|now right]); lia.
  - lia.
  - cbn [fst]. apply fuel_len, left_range.
Qed.

Definition mpt_ok (m : mpt) : Prop := 0 <= m_tempo m /\ len (m_off m) = 4 /\ len (m_blank m) = 4 /\ len (m_cnt m) = 4.

Lemma mpt_channels_wpg n m (Q : mpt -> Prop) : Z.of_nat n <= 4 -> mpt_ok m -> 0 <= m_rows m ->
  (forall m', mpt_ok m' -> 0 <= m_rows m' <= m_rows m -> Q m') -> wpg B F (mpt_channels fuel module n m) Q.
Proof.
  revert m. induction n as [|n IH]; intros m Hn (H1 & H2 & H3 & H4) H5 HQ; cbn [mpt_channels]; [apply HQ; [repeat split; assumption|lia]|].
  apply wpg_bind, wpg_get; [intros _|left; lia]. apply wpg_bind. destruct (_ =? 0).
  { cbn [wpg]. apply IH; [lia|repeat split; assumption|lia|]. assumption. }
  apply wpg_bind, wpg_get; [intros _|left; lia]. apply wpg_bind, wpg_set_nth; [lia|].
  destruct (0 <=? _).
  { cbn [wpg]. apply IH; [lia| |cbn [m_rows]; lia|assumption]. unfold mpt_ok. cbn [m_tempo m_off m_blank m_cnt]. rewrite len_upd. auto. }
  apply wpg_bind, wpg_get; [intros _|left; lia]. apply wpg_bind, mpt_notes_wpg; [assumption|assumption|]. intros o b t r Ht Hr.
  apply wpg_bind, wpg_set_nth; [lia|]. apply wpg_bind, wpg_set_nth; [lia|]. apply wpg_bind, wpg_set_nth; [rewrite len_upd; lia|].
  cbn [wpg]. apply IH; [lia| |cbn [m_rows]; lia|].
  - unfold mpt_ok. cbn [m_tempo m_off m_blank m_cnt]. rewrite !len_upd. auto.
  - cbn [m_rows]. intros m' Hm' Hr'. apply HQ; [assumption|lia].
Qed.

Lemma mpt_rows_wpg m calls (Q : mpt * Z -> Prop) : mpt_ok m -> m_rows m <= 255 -> 0 <= calls ->
  (forall m' calls', mpt_ok m' -> 0 <= calls' -> Q (m', calls')) ->
  wpg B F (loop fuel (mpt_row_step fuel module) (m, calls)) Q.
Proof.
  intros Hm Hr Hc HQ.
  apply (loop_wpg B F (mpt_row_step fuel module) (fun x => mpt_ok (fst x) /\ 0 <= snd x) (fun x => Z.max 0 (m_rows (fst x))) Q).
  - intros. lia.
  - intros [m0 c0] [H1 H2]. cbn [fst snd] in *. unfold mpt_row_step. destruct (Z.leb_spec 0 (m_rows m0 - 1)) as [C|C]; [|now apply HQ].
    apply wpg_bind, mpt_channels_wpg; [lia|exact H1|cbn [m_rows]; lia|]. cbn [m_rows]. intros m' Hm' Hr'. cbn [wpg continue_ fst snd].
    split; [split; [assumption|]|right; lia]. destruct Hm'. lia.
  - auto.
  - cbn [fst]. apply fuel_256. lia.
Qed.

Lemma mpt_patterns_wpg a pos n offs cnt (Q : option (list Z * list Z) -> Prop) : Z.of_nat n <= 4 -> len offs = 4 -> len cnt = 4 ->
  Q None -> (forall o c, len o = 4 -> len c = 4 -> Q (Some (o, c))) -> wpg B F (mpt_patterns module a pos n offs cnt) Q.
Proof.
  intros Hn Ho Hc Q1 Q2. revert offs cnt Ho Hc. induction n as [|n IH]; intros offs cnt Ho Hc; cbn [mpt_patterns]; [now apply Q2|].
  apply wpg_bind, wpg_get; [intros _|now right]. apply wpg_bind, wpg_get; [intros _|now right]. apply wpg_bind, wpg_get; [intros _|now right].
  destruct (64 <=? _); [exact Q1|]. apply wpg_bind, wpg_get_word; [intros _ _|now right].
  apply wpg_bind, wpg_set_nth; [lia|]. apply wpg_bind, wpg_set_nth; [lia|]. apply IH; [lia| |]; now rewrite len_upd.
Qed.

Definition mpt_inv b s D P (x : mpt_song) : Prop :=
  (exists L, ms_inf x = prog b s D L P /\ songs_ok s D L P) /\ len (ms_gseen x) = 256 /\ len (ms_seen x) = 256 /\ 0 <= ms_pos x /\ 0 <= ms_calls x /\ mpt_ok (ms_m x).

Lemma parse_mpt_song_wpg b songLen s D L P seen pos : 0 <= i_fastplay b -> 0 <= songLen <= 254 -> s < 32 -> songs_ok s D L P -> len seen = 256 -> 0 <= pos < 256 ->
  wpg B F (parse_mpt_song fuel module (prog b s D L P) seen songLen pos)
    (fun r => exists s' D' L' P', fst r = prog b s' D' L' P' /\ songs_ok s' D' L' P' /\ len (snd r) = 256).
Proof.
  intros Hfp Hsl Hs Hok Hseen Hpos. unfold parse_mpt_song. apply wpg_bind, wpg_get_word; [intros _ _|now right].
  apply wpg_bind, wpg_get; [intros _|now right]. apply wpg_bind.
  eapply wpg_mono; [apply (loop_wpg B F (mpt_song_step fuel module songLen (word_at module 2 - 6)) (mpt_inv b s D P) (fun x => zeros (ms_seen x))) with
    (P := fun r : info * list Z * Z => (exists L, fst (fst r) = prog b s D L P /\ songs_ok s D L P) /\ len (snd (fst r)) = 256 /\ 0 <= snd r)|].
  - intros x _. apply zeros_range.
  - intros x ((L1 & E1 & Hok1) & H2 & H3 & H4 & H5 & H6). unfold mpt_song_step.
    destruct (Z.ltb_spec (ms_pos x) songLen) as [C|C]; [|cbn [wpg leave fst snd]; eauto].
    apply wpg_bind, wpg_get; [intros _|left; lia]. destruct (Z.eqb_spec (at_ (ms_seen x) (ms_pos x)) 0) as [E0|E0]; cbn [negb].
    2:{ apply wpg_bind. rewrite E1. destruct (negb _); [apply wpg_set_loop; [assumption|assumption|]; intros L' HL'|];
        cbn [wpg leave fst snd]; eauto 6 using songs_ok_loops. }
    apply wpg_bind, wpg_set_nth; [lia|]. apply wpg_bind, wpg_set_nth; [lia|].
    assert (Hz : zeros (upd (ms_seen x) (Z.to_nat (ms_pos x)) 1) < zeros (ms_seen x)) by (rewrite zeros_upd; [lia|unfold len in H3; lia|exact E0|lia]).
    apply wpg_bind, wpg_get; [intros _|now right]. destruct (_ =? 255).
    + apply wpg_bind, wpg_get; [intros _|now right]. pose proof (at_nonneg module (465 + ms_pos x * 2) Hb).
      cbn [wpg continue_]. unfold mpt_inv. cbn [ms_inf ms_gseen ms_seen ms_pos ms_calls ms_m]. rewrite !len_upd.
      split; [|now right]. repeat split; try apply H6; eauto; lia.
    + destruct H6 as (M1 & M2 & M3 & M4). apply wpg_bind, mpt_patterns_wpg; try assumption; [lia| |].
      { cbn [wpg leave fst snd]. rewrite len_upd. eauto. }
      intros o c Ho Hc. apply wpg_bind, wpg_get; [intros _|now right]. pose proof (at_nonneg module 462 Hb). apply wpg_bind, mpt_rows_wpg.
      * unfold mpt_ok. cbn [m_tempo m_off m_blank m_cnt]. auto.
      * cbn [m_rows]. lia.
      * assumption.
      * intros m' calls' Hm' Hc'. cbn [wpg continue_]. unfold mpt_inv. cbn [ms_inf ms_gseen ms_seen ms_pos ms_calls ms_m].
        rewrite mark_seen_len, mark_seen_zeros, !len_upd by lia. split; [|now right]. repeat split; try apply Hm'; eauto; lia.
  - unfold mpt_inv. cbn [ms_inf ms_gseen ms_seen ms_pos ms_calls ms_m]. pose proof (at_nonneg module 463 Hb).
    repeat split; cbn [m_tempo]; eauto; lia.
  - cbn [ms_seen]. rewrite zeros_repeat. apply fuel_256. lia.
  - intros [[inf gs] calls] ((L' & E & Hok') & Hg & Hc). cbn [fst snd] in *. subst inf. destruct (Z.ltb_spec 0 calls).
    + apply wpg_bind, wpg_add_song; try assumption; [now right|]. intros D' HD'. cbn [wpg fst snd]. eauto 8.
    + cbn [wpg fst snd]. eauto 8.
Qed.

Lemma parse_mpt_wpg inf (Q : info -> Prop) : 0 <= i_fastplay inf ->
  i_durations inf = repeat (-1) 32 -> i_loops inf = repeat false 32 -> len (i_songPos inf) = 32 ->
  (forall m s D L P, 0 <= m <= 65535 -> (m = word_at module 2 /\ 464 <= len module) -> 1 <= s -> songs_ok s D L P -> Q (prog (set_music m (set_type MPT inf)) s D L P)) ->
  wpg B F (parse_mpt fuel inf module) Q.
Proof.
  intros Hfp HD HL HP HQ. unfold parse_mpt. destruct (Z.ltb_spec (len module) 464) as [C|C]; [exact I|].
  apply wpg_bind, parse_module_wpg; [assumption|lia|now left|]. intros m Hm Em _. assert (EM : m = word_at module 2 /\ 464 <= len module) by (split; [exact Em|lia]). clear Em.
  apply wpg_bind, wpg_get_word; [intros _ _|now right].
  apply wpg_bind, wpg_get; [intros _|now right]. apply wpg_bind, wpg_get; [intros _|now right]. destruct (negb _); [exact I|].
  apply wpg_bind, wpg_get; [intros _|now right]. apply wpg_bind, wpg_get; [intros _|now right].
  match goal with |- context [254 <? ?x] => set (songLen := x) end. clearbody songLen. cbv zeta.
  destruct (Z.ltb_spec 254 songLen) as [C1|C1]; [exact I|]. apply wpg_bind.
  change (set_songs 0 (set_music m (set_type MPT inf))) with
    (prog (set_music m (set_type MPT inf)) 0 (i_durations inf) (i_loops inf) (i_songPos inf)).
  assert (Hok : songs_ok 0 (i_durations inf) (i_loops inf) (i_songPos inf)) by (rewrite HD, HL; now apply songs_ok_init).
  destruct (Z.leb_spec 0 songLen) as [C2|C2].
  - apply songs_by_pos_wpg; try assumption; try reflexivity; try lia.
    + intros. apply parse_mpt_song_wpg; try assumption. lia.
    + intros s' D' L' P' Hok'. change (i_songs (prog _ s' D' L' P')) with s'.
      destruct (Z.eqb_spec s' 0); [exact I|]. apply HQ; [assumption|assumption| |assumption]. destruct Hok'; lia.
  - replace (Z.to_nat songLen) with O by lia. exact I.
Qed.

(* ------------------------------------------------------------------ *)
(* TMC and TM2 *)
Definition tmc_ok (t : tmc) : Prop := 0 <= t_tempo t /\ 0 <= t_frames t /\ len (t_off t) = 8 /\ len (t_blank t) = 8.

Definition notes_ok (notes : Z * Z * Z * Z -> outcome (Z * Z * Z * Z)) : Prop :=
  forall off tempo rows blank, 0 <= tempo -> 0 <= rows ->
  wpg B F (notes (off, tempo, rows, blank)) (fun r => let '(o, t, rw, b) := r in 0 <= t /\ 0 <= rw <= rows).

Lemma tmc_channels_wpg notes n t (Q : tmc -> Prop) : notes_ok notes -> Z.of_nat n <= 8 -> tmc_ok t -> 0 <= t_rows t ->
  (forall t', tmc_ok t' -> 0 <= t_rows t' <= t_rows t -> Q t') -> wpg B F (tmc_channels notes n t) Q.
Proof.
  intros Hn. revert t. induction n as [|n IH]; intros t Hn8 Ht Hr HQ; cbn [tmc_channels]; [apply HQ; [assumption|lia]|].
  pose proof Ht as (T1 & T2 & T3 & T4).
  apply wpg_bind, wpg_get; [intros _|left; lia]. apply wpg_bind. destruct (0 <=? _).
  { apply wpg_bind, wpg_set_nth; [lia|]. cbn [wpg]. apply IH; [lia| |cbn [t_rows]; lia|assumption].
    unfold tmc_ok. cbn [t_tempo t_frames t_off t_blank]. rewrite len_upd. auto. }
  apply wpg_bind, wpg_get; [intros _|left; lia]. apply wpg_bind. eapply wpg_mono; [apply Hn; assumption|].
  intros [[[o tt] rw] b] [H1 H2]. apply wpg_bind, wpg_set_nth; [lia|]. apply wpg_bind, wpg_set_nth; [lia|]. cbn [wpg].
  apply IH; [lia| |cbn [t_rows]; lia|].
  - unfold tmc_ok. cbn [t_tempo t_frames t_off t_blank]. rewrite !len_upd. auto.
  - cbn [t_rows]. intros t' Ht' Hr'. apply HQ; [assumption|lia].
Qed.

Lemma tmc_rows_wpg notes t (Q : tmc -> Prop) : notes_ok notes -> tmc_ok t -> t_rows t <= 255 ->
  (forall t', tmc_ok t' -> Q t') -> wpg B F (loop fuel (tmc_row_step notes) t) Q.
Proof.
  intros Hn Ht Hr HQ. apply (loop_wpg B F (tmc_row_step notes) tmc_ok (fun t => Z.max 0 (t_rows t)) Q).
  - intros. lia.
  - intros t0 H0. unfold tmc_row_step. cbv zeta.
    assert (H0' : tmc_ok (mkTmc (t_tempo t0) (t_frames t0) (t_rows t0 - 1) (t_off t0) (t_blank t0))) by exact H0.
    destruct (Z.leb_spec 0 (t_rows t0 - 1)) as [C|C]; [|now apply HQ].
    apply wpg_bind, tmc_channels_wpg; try assumption; [lia|]. cbn [t_rows]. intros t' (T1 & T2 & T3 & T4) Hr'. cbn [wpg continue_ t_rows].
    split; [|right; lia]. unfold tmc_ok. cbn [t_tempo t_frames t_off t_blank]. repeat split; try assumption; lia.
  - assumption.
  - apply fuel_256. lia.
Qed.

Lemma tmc_patterns_wpg base lo hi a pos n offs blanks (Q : list Z * list Z -> Prop) : Z.of_nat n <= 8 -> len offs = 8 -> len blanks = 8 ->
  (forall o c, len o = 8 -> len c = 8 -> Q (o, c)) -> wpg B F (tmc_patterns module base lo hi a pos n offs blanks) Q.
Proof.
  intros Hn Ho Hc Q2. revert offs blanks Ho Hc. induction n as [|n IH]; intros offs blanks Ho Hc; cbn [tmc_patterns]; [now apply Q2|].
  apply wpg_bind, wpg_get; [intros _|now right]. apply wpg_bind, wpg_get; [intros _|now right]. apply wpg_bind, wpg_get; [intros _|now right].
  apply wpg_bind, wpg_set_nth; [lia|]. apply wpg_bind, wpg_set_nth; [lia|]. apply IH; [lia| |]; now rewrite len_upd.
Qed.

Lemma land_nonneg a b : 0 <= b -> 0 <= Z.land a b.
Proof. intros. apply Z.land_nonneg. now right. Qed.

Lemma tmc_notes_ok : notes_ok (fun s => loop fuel (tmc_note_step module) s).
Proof.
  intros off tempo rows blank Ht Hr.
  apply (loop_wpg B F (tmc_note_step module) (fun x => let '(o, t, r, b) := x in 0 <= t /\ 0 <= r <= rows) (fun x => left_ (fst (fst (fst x))))).
  - intros x _. apply left_range.
  - intros [[[o t] r] b] [H1 H2]. unfold tmc_note_step. apply wpg_bind, wpg_get; [intros R|now right].
    pose proof (left_step o (o + 1) R ltac:(lia)). set (i := at_ module o) in *. clearbody i. cbv zeta. cbn [fst].
    destruct (i <? 64); [cbn [wpg leave]; lia|].
    destruct (i =? 64).
    { apply wpg_bind, wpg_get; [intros _|now right]. pose proof (land_nonneg (at_ module (o + 1)) 127 ltac:(lia)). destruct (_ =? 0); cbn [wpg leave]; lia. }
    destruct (i <? 128).
    { apply wpg_bind, wpg_get; [intros _|now right]. pose proof (land_nonneg (at_ module (o + 1)) 127 ltac:(lia)). destruct (_ =? 0); cbn [wpg leave]; lia. }
    destruct (i <? 192); cbn [wpg leave continue_ fst]; [split; [|now right]|]; lia.
  - lia.
  - cbn [fst]. apply fuel_len, left_range.
Qed.

Lemma tm2_notes_ok : notes_ok (fun s => loop fuel (tm2_note_step module) s).
Proof.
  intros off tempo rows blank Ht Hr.
  apply (loop_wpg B F (tm2_note_step module) (fun x => let '(o, t, r, b) := x in 0 <= t /\ 0 <= r <= rows) (fun x => left_ (fst (fst (fst x))))).
  - intros x _. apply left_range.
  - intros [[[o t] r] b] [H1 H2]. unfold tm2_note_step. apply wpg_bind, wpg_get; [intros R|now right].
    pose proof (left_step o (o + 1) R ltac:(lia)). set (i := at_ module o) in *. clearbody i. cbv zeta. cbn [fst].
    destruct (i =? 0); [cbn [wpg leave]; lia|].
    destruct (i <? 64); [apply wpg_bind, wpg_get; [intros _|now right]; cbn [wpg leave]; lia|].
    destruct (i <? 128); [cbn [wpg leave]; lia|].
    destruct (i =? 128); [apply wpg_bind, wpg_get; [intros _|now right]; cbn [wpg leave]; lia|].
    destruct (Z.ltb_spec i 192); [cbn [wpg leave]; lia|].
    destruct (i <? 208); [cbn [wpg continue_ fst]; split; [lia|now right]|].
    repeat match goal with |- context [if ?x <? ?y then _ else _] => destruct (Z.ltb_spec x y) end; cbn [wpg leave]; lia.
  - lia.
  - cbn [fst]. apply fuel_len, left_range.
Qed.

Lemma parse_tmc_song_wpg b s D L P pos (Q : info -> Prop) : 0 <= i_fastplay b -> s < 32 -> songs_ok s D L P -> 0 <= pos ->
  (forall D' L', songs_ok (s + 1) D' L' P -> Q (prog b (s + 1) D' L' P)) ->
  wpg B F (parse_tmc_song fuel module (prog b s D L P) pos) Q.
Proof.
  intros Hfp Hs Hok Hpos HQ. unfold parse_tmc_song. apply wpg_bind, wpg_get_word; [intros _ _|now right].
  apply wpg_bind, wpg_get; [intros _|now right]. apply wpg_bind. pose proof (at_nonneg module 36 Hb) as R36.
  eapply wpg_mono; [apply (loop_wpg B F (tmc_song_step fuel module (word_at module 2 - 6)) (fun x => 0 <= fst x /\ tmc_ok (snd x)) (fun x => left_ (437 + fst x))) with
    (P := fun r : Z * tmc => tmc_ok (snd r))|].
  - intros x _. apply left_range.
  - intros [p t] [H1 H2]. cbn [fst snd] in *. unfold tmc_song_step. apply wpg_bind, wpg_get; [intros R|now right].
    destruct (_ <? 128); [|exact H2]. pose proof H2 as (T1 & T2 & T3 & T4).
    apply wpg_bind, tmc_patterns_wpg; try assumption; [lia|]. intros o c Ho Hc. apply wpg_bind, tmc_rows_wpg.
    + apply tmc_notes_ok.
    + unfold tmc_ok. cbn [t_tempo t_frames t_off t_blank]. auto.
    + cbn [t_rows]. lia.
    + intros t' Ht'. cbn [wpg continue_ fst snd]. split; [split; [lia|assumption]|right]. apply left_step; [exact R|lia].
  - unfold tmc_ok. cbn [fst snd t_tempo t_frames t_off t_blank]. repeat split; lia.
  - cbn [fst]. apply fuel_len, left_range.
  - intros [p t] (T1 & T2 & T3 & T4). cbn [snd] in *. apply wpg_bind, wpg_get; [intros _|now right]. apply wpg_bind.
    destruct (_ <? 128).
    + apply wpg_set_loop; [assumption|assumption|]. intros L' HL'. apply wpg_add_song; try assumption; [eauto using songs_ok_loops|now right|].
      intros D' HD'. apply HQ. assumption.
    + cbn [wpg]. apply wpg_add_song; try assumption; [now right|]. intros D' HD'. apply HQ. assumption.
Qed.

Lemma parse_tm2_song_wpg b s D L P pos (Q : info -> Prop) : 0 <= i_fastplay b -> s < 32 -> songs_ok s D L P -> 0 <= pos ->
  (forall D' L', songs_ok (s + 1) D' L' P -> Q (prog b (s + 1) D' L' P)) ->
  wpg B F (parse_tm2_song fuel module (prog b s D L P) pos) Q.
Proof.
  intros Hfp Hs Hok Hpos HQ. unfold parse_tm2_song. apply wpg_bind, wpg_get_word; [intros _ _|now right].
  apply wpg_bind, wpg_get; [intros _|now right]. apply wpg_bind. pose proof (at_nonneg module 36 Hb) as R36.
  eapply wpg_mono; [apply (loop_wpg B F (tm2_song_step fuel module (word_at module 2 - 6))
      (fun x => fst (fst x) = prog b s D L P /\ 0 <= snd (fst x) /\ tmc_ok (snd x)) (fun x => left_ (918 + snd (fst x)))) with
    (P := fun r : info * tmc => (exists L, fst r = prog b s D L P /\ songs_ok s D L P) /\ tmc_ok (snd r))|].
  - intros x _. apply left_range.
  - intros [[inf p] t] (E & H1 & H2). cbn [fst snd] in *. subst inf. unfold tm2_song_step. apply wpg_bind, wpg_get; [intros R|now right].
    pose proof (at_nonneg module (918 + p) Hb).
    destruct (_ =? 0); [cbn [wpg leave fst snd]; eauto|]. destruct (Z.leb_spec 128 (at_ module (918 + p))).
    { apply wpg_bind, wpg_set_loop; [assumption|assumption|]. intros L' HL'. cbn [wpg leave fst snd]. eauto 6 using songs_ok_loops. }
    pose proof H2 as (T1 & T2 & T3 & T4).
    apply wpg_bind, tmc_patterns_wpg; try assumption; [lia|]. intros o c Ho Hc. apply wpg_bind, tmc_rows_wpg.
    + apply tm2_notes_ok.
    + unfold tmc_ok. cbn [t_tempo t_frames t_off t_blank]. auto.
    + cbn [t_rows]. lia.
    + intros t' Ht'. cbn [wpg continue_ fst snd]. split; [repeat split; try assumption; [lia|apply Ht'..]|right]. apply left_step; [exact R|lia].
  - unfold tmc_ok. cbn [fst snd t_tempo t_frames t_off t_blank]. repeat split; lia.
  - cbn [fst snd]. apply fuel_len, left_range.
  - intros [inf t] [(L' & E & Hok') (T1 & T2 & T3 & T4)]. cbn [fst snd] in *. subst inf.
    apply wpg_add_song; try assumption; [now right|]. intros D' HD'. apply HQ. assumption.
Qed.

(* titles *)
Lemma u8_id v : 0 <= v < 256 -> u8 v = v.
Proof. unfold u8. intros. now apply Z.mod_small. Qed.

Lemma valid_char_meta c : is_valid_char c = true -> meta_char c.
Proof. unfold is_valid_char, meta_char. lia. Qed.

Lemma tmc_title_char_meta c : meta_char (u8 (tmc_title_char c)).
Proof.
  assert (H : forallb (fun d => is_valid_char (u8 (tmc_title_char d))) (zrange 128) = true) by (vm_compute; reflexivity).
  assert (E : tmc_title_char c = tmc_title_char (Z.land c 127)).
  { unfold tmc_title_char. rewrite <- Z.land_assoc. reflexivity. }
  rewrite E. apply valid_char_meta. apply (forallb_zrange 128 _ H).
  change 127 with (2 ^ 7 - 1). rewrite land_ones_mod by lia. lia.
Qed.

Lemma put_title_wpg t c (Q : list Z -> Prop) : Forall meta_char t -> len t < 127 -> meta_char (u8 c) ->
  (forall t', Forall meta_char t' -> len t' = len t + 1 -> Q t') -> wpg B F (put_title t c) Q.
Proof.
  intros H1 H2 H3 HQ. unfold put_title. destruct (Z.leb_spec 127 (len t)); [lia|]. cbn [wpg]. apply HQ.
  - apply Forall_app. split; [assumption|]. constructor; [assumption|constructor].
  - rewrite len_app. reflexivity.
Qed.

Lemma tmc_title_copy_wpg o n t (Q : list Z -> Prop) : Forall meta_char t -> len t + Z.of_nat n <= 127 ->
  (forall t', Forall meta_char t' -> len t' <= len t + Z.of_nat n -> Q t') -> wpg B F (tmc_title_copy module o n t) Q.
Proof.
  revert o t. induction n as [|n IH]; intros o t H1 H2 HQ; cbn [tmc_title_copy]; [apply HQ; [assumption|lia]|].
  apply wpg_bind, wpg_get; [intros _|now right]. apply wpg_bind, put_title_wpg; [assumption|lia|apply tmc_title_char_meta|]. intros t' H3 H4.
  apply IH; [assumption|lia|]. intros t2 H5 H6. apply HQ; [assumption|lia].
Qed.

Lemma tmc_title_last_wpg o n (Q : option nat -> Prop) : Q None -> (forall k, (k <= n)%nat -> Q (Some k)) -> wpg B F (tmc_title_last module o n) Q.
Proof.
  intros Q1. induction n as [|n IH]; intros Q2; cbn [tmc_title_last]; [exact Q1|].
  apply wpg_bind, wpg_get; [intros _|now right]. destruct (_ =? 32); [apply IH; auto|]. apply Q2. lia.
Qed.

Lemma parse_tmc_title_wpg t o (Q : list Z -> Prop) : Forall meta_char t -> len t + 33 <= 127 ->
  (forall t', Forall meta_char t' -> len t' <= len t + 33 -> Q t') -> wpg B F (parse_tmc_title t module o) Q.
Proof.
  intros H1 H2 HQ. unfold parse_tmc_title. apply wpg_bind, tmc_title_last_wpg; [apply HQ; [assumption|lia]|]. intros k Hk.
  apply wpg_bind. destruct (0 <? len t).
  - apply wpg_bind, put_title_wpg; [assumption|lia|unfold meta_char, u8; cbn; lia|]. intros t1 A1 B1.
    apply wpg_bind, put_title_wpg; [assumption|lia|unfold meta_char, u8; cbn; lia|]. intros t2 A2 B2.
    apply put_title_wpg; [assumption|lia|unfold meta_char, u8; cbn; lia|]. intros t3 A3 B3.
    apply tmc_title_copy_wpg; [assumption|lia|]. intros t4 A4 B4. apply HQ; [assumption|lia].
  - cbn [wpg]. apply tmc_title_copy_wpg; [assumption|lia|]. intros t4 A4 B4. apply HQ; [assumption|lia].
Qed.

Lemma tmc_first_wpg n i (Q : Z -> Prop) : (forall j, i <= j -> Q j) -> wpg B F (tmc_first_instrument module n i) Q.
Proof.
  revert i. induction n as [|n IH]; intros i HQ; cbn [tmc_first_instrument]; [exact I|].
  apply wpg_bind, wpg_get; [intros _|now right]. destruct (_ =? 0); [|apply HQ; lia]. apply IH. intros. apply HQ. lia.
Qed.

Lemma perframe_fastplay i : 1 <= i -> i <= 4 -> In (Z.quot 312 i) [312; 156; 104; 78].
Proof. intros. assert (i = 1 \/ i = 2 \/ i = 3 \/ i = 4) as [->|[->|[->| ->]]] by lia; cbn; auto. Qed.

Lemma prog_prog b s D L P : prog b s D L P = prog (prog b s D L P) s D L P.
Proof. reflexivity. Qed.

Lemma parse_tmc_wpg inf (Q : info -> Prop) : 0 <= i_fastplay inf ->
  i_durations inf = repeat (-1) 32 -> i_loops inf = repeat false 32 -> len (i_songPos inf) = 32 ->
  (forall m s D L f t, 0 <= m <= 65535 -> (m = word_at module 2 /\ 464 <= len module) -> 1 <= s -> songs_ok s D L (i_songPos inf) -> In f [312; 156; 104; 78] -> meta_text t ->
     Q (prog (set_title t (set_fastplay f (set_channels 2 (set_music m (set_type TMC inf))))) s D L (i_songPos inf))) ->
  wpg B F (parse_tmc fuel inf module) Q.
Proof.
  intros Hfp HD HL HP HQ. unfold parse_tmc. destruct (Z.ltb_spec (len module) 464) as [C|C]; [exact I|].
  apply wpg_bind, parse_module_wpg; [assumption|lia|now left|]. intros m Hm Em _. assert (EM : m = word_at module 2 /\ 464 <= len module) by (split; [exact Em|lia]). clear Em.
  apply wpg_bind, tmc_first_wpg. intros i Hi.
  apply wpg_bind, wpg_get; [intros _|now right]. apply wpg_bind, wpg_get; [intros _|now right].
  apply wpg_bind, wpg_get_word; [intros _ _|now right].
  match goal with |- context [if len module <=? 437 + ?x then _ else _] => set (lastPos := x) end. clearbody lastPos. cbv zeta.
  destruct (Z.leb_spec (len module) (437 + lastPos)) as [C1|C1]; [exact I|]. apply wpg_bind.
  eapply wpg_mono; [apply (loop_wpg B F (tmc_last_step module) (fun p => p <= lastPos) (fun p => Z.max 0 p)) with (P := fun r => r <= lastPos)|].
  - intros. lia.
  - intros p Hp. unfold tmc_last_step. destruct (Z.leb_spec p 0); [exact I|]. apply wpg_bind, wpg_get; [intros _|now right].
    destruct (_ <=? _); cbn [wpg continue_ leave]; lia.
  - lia.
  - apply fuel_len. lia.
  - intros lp Hlp. cbv beta in Hlp. clear Hi. apply wpg_bind.
    change (set_songs 0 (set_channels 2 (set_music m (set_type TMC inf)))) with
      (prog (set_channels 2 (set_music m (set_type TMC inf))) 0 (i_durations inf) (i_loops inf) (i_songPos inf)).
    assert (Hok : songs_ok 0 (i_durations inf) (i_loops inf) (i_songPos inf)) by (rewrite HD, HL; now apply songs_ok_init).
    set (b := set_channels 2 (set_music m (set_type TMC inf))) in *.
    apply parse_tmc_song_wpg; try assumption; try lia. intros D1 L1 Hok1. apply wpg_bind.
    eapply wpg_mono; [apply (loop_wpg B F (tmc_songs_step fuel module lp)
      (fun x => 0 <= fst x /\ exists s D L, snd x = prog b s D L (i_songPos inf) /\ 1 <= s /\ songs_ok s D L (i_songPos inf)) (fun x => Z.max 0 (lp - fst x))) with
      (P := fun r : info => exists s D L, r = prog b s D L (i_songPos inf) /\ 1 <= s /\ songs_ok s D L (i_songPos inf))|].
    + intros. lia.
    + intros [j inf'] (H1 & s & D & L & E & Hs1 & Hs). cbn [fst snd] in *. subst inf'. unfold tmc_songs_step.
      change (i_songs (prog b s D L (i_songPos inf))) with s.
      destruct (Z.ltb_spec j lp); cbn [andb]; [|cbn [wpg leave]; eauto 8].
      destruct (Z.ltb_spec s 32); [|cbn [wpg leave]; eauto 8].
      apply wpg_bind, wpg_get; [intros _|now right]. apply wpg_bind. destruct (_ <=? _).
      * apply parse_tmc_song_wpg; try assumption; try lia. intros D' L' Hok'. cbn [wpg continue_ fst snd]. split; [|right; lia].
        split; [lia|]. exists (s + 1), D', L'. repeat split; try apply Hok'; lia.
      * cbn [wpg continue_ fst snd]. split; [|right; lia]. split; [lia|]. eauto 8.
    + cbn [fst snd]. split; [lia|]. exists (0 + 1), D1, L1. repeat split; try apply Hok1; lia.
    + cbn [fst]. apply fuel_len. lia.
    + intros inf' (s & D & L & E & Hs1 & Hs). subst inf'.
      apply wpg_bind, wpg_get; [intros _|now right]. set (pf := at_ module 37). clearbody pf.
      destruct (Z.ltb_spec pf 1); cbn [orb]; [exact I|]. destruct (Z.ltb_spec 4 pf); [exact I|].
      apply wpg_bind, parse_tmc_title_wpg; [constructor|cbn; lia|]. intros t' T1 T2. cbn [wpg]. rewrite len_nil in T2.
      apply (HQ m s D L (Z.quot 312 pf) t'); try assumption; [now apply perframe_fastplay|]. split; [lia|assumption].
Qed.

Lemma tm2_lowest_wpg lo hi n i last (Q : Z -> Prop) : (forall v, Q v) -> wpg B F (tm2_lowest module lo hi n i last) Q.
Proof.
  intros HQ. revert i last. induction n as [|n IH]; intros i last; cbn [tm2_lowest]; [apply HQ|].
  apply wpg_bind, wpg_get; [intros _|now right]. apply wpg_bind, wpg_get; [intros _|now right]. apply IH.
Qed.

Lemma parse_tm2_wpg inf (Q : info -> Prop) : 0 <= i_fastplay inf ->
  i_durations inf = repeat (-1) 32 -> i_loops inf = repeat false 32 -> len (i_songPos inf) = 32 -> 1 <= i_channels inf <= 2 ->
  (forall m c s D L f t, 0 <= m <= 65535 -> (m = word_at module 2 /\ 932 <= len module) -> 1 <= c <= 2 -> 1 <= s -> songs_ok s D L (i_songPos inf) -> In f [312; 156; 104; 78] -> meta_text t ->
     Q (prog (set_title t (set_channels c (set_player 2048 (set_fastplay f (set_music m (set_type TM2 inf)))))) s D L (i_songPos inf))) ->
  wpg B F (parse_tm2 fuel inf module) Q.
Proof.
  intros Hfp HD HL HP Hch HQ. unfold parse_tm2. destruct (Z.ltb_spec (len module) 932) as [C|C]; [exact I|].
  apply wpg_bind, parse_module_wpg; [assumption|lia|now left|]. intros m Hm Em _. assert (EM : m = word_at module 2 /\ 932 <= len module) by (split; [exact Em|lia]). clear Em.
  apply wpg_bind, wpg_get; [intros _|now right]. set (pf := at_ module 37). clearbody pf.
  destruct (Z.ltb_spec pf 1) as [C2|C2]; cbn [orb]; [exact I|]. destruct (Z.ltb_spec 4 pf) as [C3|C3]; [exact I|]. cbv zeta.
  apply wpg_bind, wpg_get; [intros _|now right].
  apply wpg_bind, tm2_lowest_wpg. intros v1. apply wpg_bind, tm2_lowest_wpg. intros v2.
  apply wpg_bind, wpg_get_word; [intros _ _|now right].
  set (lastPos := v2 - (word_at module 2 + 896)). clearbody lastPos.
  destruct (Z.leb_spec (len module) (902 + lastPos)) as [C1|C1]; [exact I|]. apply wpg_bind.
  assert (HF : In (Z.quot 312 pf) [312; 156; 104; 78]) by now apply perframe_fastplay.
  assert (HF0 : 0 <= Z.quot 312 pf) by (cbn in HF; lia).
  set (f := Z.quot 312 pf) in *. clearbody f.
  assert (EC : exists c, 1 <= c <= 2 /\ (if at_ module 31 =? 0 then set_player 2048 (set_fastplay f (set_music m (set_type TM2 inf)))
     else set_channels 2 (set_player 2048 (set_fastplay f (set_music m (set_type TM2 inf))))) = set_channels c (set_player 2048 (set_fastplay f (set_music m (set_type TM2 inf))))).
  { destruct (_ =? 0); [exists (i_channels inf); split; [lia|reflexivity]|exists 2; split; [lia|reflexivity]]. }
  destruct EC as (c & Hc & ->).
  eapply wpg_mono; [apply (loop_wpg B F (tm2_last_step module) (fun p => p <= lastPos) (fun p => Z.max 0 p)) with (P := fun r => r <= lastPos)|].
  - intros. lia.
  - intros p Hp. unfold tm2_last_step. destruct (Z.leb_spec p 0); [exact I|]. apply wpg_bind, wpg_get; [intros _|now right].
    destruct (_ || _); cbn [wpg continue_ leave]; lia.
  - lia.
  - apply fuel_len. lia.
  - intros lp Hlp. cbv beta in Hlp. apply wpg_bind.
    set (b := set_channels c (set_player 2048 (set_fastplay f (set_music m (set_type TM2 inf))))) in *.
    change (set_songs 0 b) with (prog b 0 (i_durations inf) (i_loops inf) (i_songPos inf)).
    assert (Hok : songs_ok 0 (i_durations inf) (i_loops inf) (i_songPos inf)) by (rewrite HD, HL; now apply songs_ok_init).
    apply parse_tm2_song_wpg; try assumption; try lia. intros D1 L1 Hok1. apply wpg_bind.
    eapply wpg_mono; [apply (loop_wpg B F (tm2_songs_step fuel module lp)
      (fun x => 0 <= fst x /\ exists s D L, snd x = prog b s D L (i_songPos inf) /\ 1 <= s /\ songs_ok s D L (i_songPos inf)) (fun x => Z.max 0 (lp - fst x))) with
      (P := fun r : info => exists s D L, r = prog b s D L (i_songPos inf) /\ 1 <= s /\ songs_ok s D L (i_songPos inf))|].
    + intros. lia.
    + intros [j inf'] (H1 & s & D & L & E & Hs1 & Hs). cbn [fst snd] in *. subst inf'. unfold tm2_songs_step.
      change (i_songs (prog b s D L (i_songPos inf))) with s.
      destruct (Z.ltb_spec j lp); cbn [andb]; [|cbn [wpg leave]; eauto 8].
      destruct (Z.ltb_spec s 32); [|cbn [wpg leave]; eauto 8].
      apply wpg_bind, wpg_get; [intros _|now right]. apply wpg_bind. destruct (_ || _).
      * apply parse_tm2_song_wpg; try assumption; try lia. intros D' L' Hok'. cbn [wpg continue_ fst snd]. split; [|right; lia].
        split; [lia|]. exists (s + 1), D', L'. repeat split; try apply Hok'; lia.
      * cbn [wpg continue_ fst snd]. split; [|right; lia]. split; [lia|]. eauto 8.
    + cbn [fst snd]. split; [lia|]. exists (0 + 1), D1, L1. repeat split; try apply Hok1; lia.
    + cbn [fst]. apply fuel_len. lia.
    + intros inf' (s & D & L & E & Hs1 & Hs). subst inf'.
      apply wpg_bind, parse_tmc_title_wpg; [constructor|cbn; lia|]. intros t1 T1 T1'. rewrite len_nil in T1'.
      apply wpg_bind, parse_tmc_title_wpg; [assumption|lia|]. intros t2 T2 T2'.
      apply wpg_bind, parse_tmc_title_wpg; [assumption|lia|]. intros t3 T3 T3'. cbn [wpg].
      apply (HQ m c s D L f t3); try assumption. split; [lia|assumption].
Qed.
End Common.

(* ------------------------------------------------------------------ *)
Lemma at_upd l i j v : 0 <= i < len l -> 0 <= j -> at_ (upd l (Z.to_nat i) v) j = if j =? i then v else at_ l j.
Proof.
  intros Hi Hj. unfold at_, len in *. destruct (Z.eqb_spec j i) as [->|E].
  - apply nth_upd_eq. lia.
  - apply nth_upd_ne. lia.
Qed.

(* RMT: may loop forever if a pattern contains a jump (191) *)
Section Rmt.
Variable B : ub_reason -> Prop.
Variable F : Prop.
Hypothesis Bovf : B UbOverflow.
Hypothesis Bread : B UbRead.
Variable module : list Z.
Hypothesis Hb : bytes module.
Hypothesis Hjump : forall i, 0 <= i < len module -> at_ module i = 191 -> F.
Variable fuel : nat.
Hypothesis Hfuel : F \/ len module <= Z.of_nat fuel /\ 5000 <= Z.of_nat fuel.

Let Hfuel' : F \/ len module <= Z.of_nat fuel /\ 256 <= Z.of_nat fuel.
Proof. destruct Hfuel as [?|[]]; [now left|right; lia]. Qed.

Record rmt_ok (r : rmt) : Prop := {
  ro_begin : len (r_begin r) = 8; ro_off : len (r_off r) = 8; ro_blank : len (r_blank r) = 8; ro_insNo : len (r_insNo r) = 8;
  ro_insFrame : len (r_insFrame r) = 8; ro_volVal : len (r_volVal r) = 8; ro_volFrame : len (r_volFrame r) = 8;
  ro_tempo : 0 <= r_tempo r; ro_frames : 0 <= r_frames r;
  ro_ch : forall ch, 0 <= ch < 8 -> 0 <= at_ (r_insFrame r) ch <= at_ (r_volFrame r) ch /\ at_ (r_volFrame r) ch <= r_frames r /\ 0 <= at_ (r_volVal r) ch <= 15
}.

Ltac rok H := destruct H; constructor; cbn [r_tempo r_frames r_begin r_off r_blank r_insNo r_insFrame r_volVal r_volFrame] in *; rewrite ?len_upd; auto.

Lemma rmt_note_wpg ch r off : 0 <= ch < 8 -> rmt_ok r ->
  wpg B F (rmt_note_step module ch (r, off)) (fun x => match x with
    | inl s' => (rmt_ok (fst s') /\ r_rows (fst s') = r_rows r) /\ (F \/ left_ module (snd s') < left_ module off)
    | inr s' => rmt_ok (fst s') /\ (r_rows (fst s') = r_rows r \/ r_rows (fst s') = -1) end).
Proof.
  intros Hc Hr. pose proof Hr as [R1 R2 R3 R4 R5 R6 R7 R8 R9 R10]. unfold rmt_note_step.
  apply wpg_bind, wpg_get; [intros Roff|now right].
  destruct (_ <? 62).
  { apply wpg_bind, wpg_get; [intros _|now right]. apply wpg_bind.
    set (vv := Z.land (Z.shiftr (at_ module off + Z.shiftl (at_ module (off + 1)) 8) 6) 15).
    assert (Hvv : 0 <= vv <= 15) by (unfold vv; generalize (Z.shiftr (at_ module off + Z.shiftl (at_ module (off + 1)) 8) 6); intros q; rewrite (land_ones_mod q 4 ltac:(lia) : Z.land q 15 = q mod 16); lia).
    assert (K : forall a b, len a = 8 -> len b = 8 -> (forall c, 0 <= c < 8 -> 0 <= at_ b c <= r_frames r /\ (c <> ch -> at_ b c = at_ (r_insFrame r) c)) -> wpg B F
      (volVal <- set_nth (r_volVal r) ch vv;;
       volFrame <- set_nth (r_volFrame r) ch (r_frames r);;
       leave (mkRmt (r_tempo r) (r_frames r) (r_rows r) (r_begin r) (r_off r) (r_blank r) a b volVal volFrame, off + 1 + 1))
       (fun x : rmt * Z + rmt * Z => match x with
         | inl s' => (rmt_ok (fst s') /\ r_rows (fst s') = r_rows r) /\ (F \/ left_ module (snd s') < left_ module off)
         | inr s' => rmt_ok (fst s') /\ (r_rows (fst s') = r_rows r \/ r_rows (fst s') = -1) end)).
    { intros a b Ha Hbb Hab. apply wpg_bind, wpg_set_nth; [lia|]. apply wpg_bind, wpg_set_nth; [lia|]. cbn [wpg leave fst r_rows].
      split; [|now left]. constructor; cbn [r_tempo r_frames r_begin r_off r_blank r_insNo r_insFrame r_volVal r_volFrame]; rewrite ?len_upd; auto.
      intros c Hcc. rewrite !at_upd by lia. destruct (Hab c Hcc) as [A1 A2]. destruct (R10 c Hcc) as (B1 & B2 & B3).
      destruct (Z.eqb_spec c ch) as [->|E]; [lia|]. rewrite A2 by assumption. lia. }
    destruct (_ =? 61).
    { cbv beta iota. apply K; try assumption. intros c Hcc. destruct (R10 c Hcc) as (B1 & B2 & B3). split; [lia|reflexivity]. }
    apply wpg_bind, wpg_set_nth; [lia|]. apply wpg_bind, wpg_set_nth; [lia|]. cbn [wpg]. apply K; [now rewrite len_upd|now rewrite len_upd|].
    intros c Hcc. destruct (R10 c Hcc) as (B1 & B2 & B3). rewrite at_upd by lia. destruct (Z.eqb_spec c ch) as [->|E]; [split; [lia|contradiction]|split; [lia|reflexivity]]. }
  destruct (_ =? 62).
  { apply wpg_bind, wpg_get; [intros _|now right]. apply wpg_bind, wpg_set_nth; [lia|]. cbn [wpg leave fst r_rows]. split; [|now left]. rok Hr. }
  destruct (_ =? 62).
  { apply wpg_bind, wpg_set_nth; [lia|]. cbn [wpg leave fst r_rows]. split; [|now left]. rok Hr. }
  destruct (_ =? 63).
  { apply wpg_bind, wpg_get; [intros _|now right]. pose proof (at_nonneg module (off + 1) Hb). cbn [wpg continue_ fst snd r_rows].
    split; [split; [|reflexivity]|right; apply left_step; lia]. rok Hr. lia. }
  destruct (Z.eqb_spec (at_ module off) 191).
  { apply wpg_bind, wpg_get; [intros _|now right]. apply wpg_bind, wpg_get; [intros _|now right]. cbn [wpg continue_ fst snd]. split; [auto|left; eauto]. }
  cbn [wpg leave fst r_rows]. split; [|now right]. rok Hr.
Qed.

Lemma rmt_channels_wpg n ch r (Q : rmt -> Prop) : 0 <= ch -> ch + Z.of_nat n <= 8 -> rmt_ok r ->
  (forall r', rmt_ok r' -> r_rows r' = r_rows r \/ r_rows r' = -1 -> Q r') ->
  wpg B F (rmt_channels fuel module n ch r) Q.
Proof.
  revert ch r. induction n as [|n IH]; intros ch r Hc Hn Hr HQ; cbn [rmt_channels]; [now apply HQ; [|left]|].
  pose proof Hr as [R1 R2 R3 R4 R5 R6 R7 R8 R9 R10].
  apply wpg_bind, wpg_get; [intros _|now right]. apply wpg_bind, wpg_set_nth; [lia|]. cbv zeta.
  match goal with |- context [mkRmt (r_tempo r) (r_frames r) (r_rows r) (r_begin r) (r_off r) ?x (r_insNo r) (r_insFrame r) (r_volVal r) (r_volFrame r)] =>
    assert (Hr1 : rmt_ok (mkRmt (r_tempo r) (r_frames r) (r_rows r) (r_begin r) (r_off r) x (r_insNo r) (r_insFrame r) (r_volVal r) (r_volFrame r))) by rok Hr end.
  match type of Hr1 with rmt_ok ?x => set (r1 := x) in *; assert (E1 : r_rows r1 = r_rows r) by reflexivity end. clearbody r1.
  destruct (0 <? _); [apply IH; try assumption; try lia; now rewrite E1|].
  apply wpg_bind, wpg_get; [intros _|now right]. apply wpg_bind.
  eapply wpg_mono; [apply (loop_wpg B F (rmt_note_step module ch) (fun x => rmt_ok (fst x) /\ r_rows (fst x) = r_rows r) (fun x => left_ module (snd x))) with
    (P := fun x => rmt_ok (fst x) /\ (r_rows (fst x) = r_rows r \/ r_rows (fst x) = -1))|].
  - intros x _. apply left_range.
  - intros [r2 o] [H2 H3]. cbn [fst snd] in *. eapply wpg_mono; [apply rmt_note_wpg; [lia|exact H2]|]. rewrite H3. intros [x|x] Hx; exact Hx.
  - split; assumption.
  - cbn [snd]. apply (fuel_len F module fuel Hfuel'), left_range.
  - intros [r2 o] [Hr2 Hrows]. cbn [fst] in Hr2, Hrows. pose proof Hr2 as [S1 S2 S3 S4 S5 S6 S7 S8 S9 S10].
    apply wpg_bind, wpg_set_nth; [lia|]. cbv zeta.
    match goal with |- context [mkRmt (r_tempo r2) (r_frames r2) (r_rows r2) (r_begin r2) ?x (r_blank r2) (r_insNo r2) (r_insFrame r2) (r_volVal r2) (r_volFrame r2)] =>
    assert (Hr3 : rmt_ok (mkRmt (r_tempo r2) (r_frames r2) (r_rows r2) (r_begin r2) x (r_blank r2) (r_insNo r2) (r_insFrame r2) (r_volVal r2) (r_volFrame r2))) by rok Hr2 end.
    match type of Hr3 with rmt_ok ?x => set (r3 := x) in *; assert (E3 : r_rows r3 = r_rows r2) by reflexivity end. clearbody r3.
    destruct (_ <? 0); [apply HQ; [assumption|now rewrite E3]|]. apply IH; try assumption; try lia.
    intros r' H1 H2. apply HQ; [assumption|]. rewrite E3 in H2. lia.
Qed.

Lemma rmt_patterns_wpg line lo hi a n ch r (Q : option rmt -> Prop) : 0 <= ch -> ch + Z.of_nat n <= 8 -> rmt_ok r -> Q None -> (forall r, rmt_ok r -> Q (Some r)) ->
  wpg B F (rmt_patterns module line lo hi a n ch r) Q.
Proof.
  revert ch r. induction n as [|n IH]; intros ch r Hc Hn Hr Q1 HQ; cbn [rmt_patterns]; [now apply HQ|].
  pose proof Hr as [R1 R2 R3 R4 R5 R6 R7 R8 R9 R10].
  apply wpg_bind, wpg_get; [intros _|now right]. destruct (_ =? 255).
  { apply wpg_bind, wpg_set_nth; [lia|]. apply IH; try assumption; try lia. rok Hr. }
  apply wpg_bind, wpg_get; [intros _|now right]. apply wpg_bind, wpg_get; [intros _|now right].
  apply wpg_bind, wpg_set_nth; [lia|]. apply wpg_bind, wpg_set_nth; [lia|]. destruct (_ <? 0); [exact Q1|].
  apply wpg_bind, wpg_set_nth; [lia|]. apply IH; try assumption; try lia. rok Hr.
Qed.

Lemma rmt_volume_wpg i x e (Q : Z -> Prop) : (forall v, Q v) -> wpg B F (rmt_volume module i x e) Q.
Proof. intros HQ. unfold rmt_volume. apply wpg_bind, wpg_get; [intros _|now right]. apply HQ. Qed.

Lemma rmt_frames_wpg i v vf e (Q : Z -> Prop) : 0 <= at_ module 12 -> 0 <= v <= 15 -> 0 <= vf -> (forall v, Q v) -> wpg B F (rmt_instrument_frames fuel module i v vf e) Q.
Proof.
  intros Hpf Hv Hvf HQ. unfold rmt_instrument_frames. cbv zeta.
  apply wpg_bind, wpg_get_word; [intros _ _|now right]. apply wpg_bind, wpg_get_word; [intros _ _|now right].
  apply wpg_bind, wpg_get; [intros _|now right]. destruct (_ =? 0); [apply HQ|].
  apply wpg_bind, wpg_get_word; [intros _ _|now right].
  match goal with |- context [get module (?x + 2)] => set (ins := x) end. clearbody ins.
  apply wpg_bind, wpg_get; [intros _|now right]. apply wpg_bind, wpg_get; [intros _|now right].
  apply wpg_bind, wpg_get; [intros _|now right]. apply wpg_bind, wpg_get; [intros _|now right].
  set (pf := at_ module 12) in *.
  pose proof (at_nonneg module ins Hb) as R0. pose proof (at_nonneg module (ins + 2) Hb) as R2. pose proof (at_nonneg module (ins + 7) Hb) as R7.
  pose proof (at_nonneg module (ins + 6) Hb) as R6.
  set (b0 := at_ module ins) in *. set (ie := at_ module (ins + 2) + 3) in *. clearbody b0. set (il := at_ module (ins + 3)).
  destruct (_ <=? _); [apply HQ|].
  apply wpg_bind, wpg_get; [intros _|now right]. apply wpg_bind, wpg_get; [intros _|now right].
  set (depth := at_ module (ins + 6)) in *. set (vmin := at_ module (ins + 7)) in *.
  assert (K : forall a b c, wpg B F (if pf =? 0 then UB UbOverflow else if depth =? 0 then Ok (Z.quot c pf) else
      calls <- loop fuel (rmt_slide_step module ins ie il depth vmin e) (a, b, c, 128, false, v) ;; Ok (Z.quot calls pf)) Q).
  { intros a b c. destruct (_ =? 0); [exact Bovf|]. destruct (Z.eqb_spec depth 0); [apply HQ|]. apply wpg_bind.
    apply (loop_wpg B F _ (fun x => 0 <= snd (fst (fst x)) /\ 0 <= snd x) (fun x => snd x * 257 + snd (fst (fst x)))).
    - intros x [H1 H2]. lia.
    - intros [[[[[i0 c0] cs] sl] si] vol] [H1 H2]. cbn [fst snd] in *. unfold rmt_slide_step. cbv zeta.
      destruct (_ && _); [apply HQ|]. apply wpg_bind, rmt_volume_wpg. intros vv. apply wpg_bind, wpg_get; [intros _|now right].
      destruct (Z.ltb_spec (sl - depth) 0).
      + destruct (Z.leb_spec (vol - 1) vmin); [apply HQ|]. cbn [wpg continue_ fst snd]. split; [lia|right; lia].
      + cbn [wpg continue_ fst snd]. split; [lia|right; lia].
    - cbn [fst snd]. lia.
    - cbn [fst snd]. destruct Hfuel as [?|[]]; [now left|right; lia]. }
  apply wpg_bind. destruct (Z.leb_spec ie (b0 + 1 + vf * pf * 3)) as [C|C]; [apply K|].
  apply (loop_wpg B F _ (fun x => 0 <= fst (fst x)) (fun x => Z.max 0 (ie - fst (fst x)))).
  - intros. lia.
  - intros [[i0 c0] cs] H1. cbn [fst] in H1. unfold rmt_envelope_step. cbv zeta.
    apply wpg_bind, rmt_volume_wpg. intros vv. apply wpg_bind, wpg_get; [intros _|now right].
    destruct (Z.ltb_spec (i0 + 3) ie); [cbn [wpg continue_ fst]; split; [lia|right; lia]|]. cbn [wpg leave]. apply K.
  - cbn [fst]. nia.
  - cbn [fst]. destruct Hfuel as [?|[]]; [now left|right; nia].
Qed.

Lemma rmt_sounding_wpg r n ch lg (Q : Z -> Prop) : 0 <= at_ module 12 -> rmt_ok r -> 0 <= ch -> ch + Z.of_nat n <= 8 -> (forall v, Q v) -> wpg B F (rmt_sounding fuel module r n ch lg) Q.
Proof.
  intros Hpf Hr Hc Hn HQ. revert ch lg Hc Hn. induction n as [|n IH]; intros ch lg Hc Hn; cbn [rmt_sounding]; [apply HQ|].
  destruct (ro_ch r Hr ch ltac:(lia)) as (A1 & A2 & A3).
  do 4 (apply wpg_bind, wpg_get; [intros _|now right]). apply wpg_bind, rmt_frames_wpg; try assumption; try lia. intros v. apply IH; lia.
Qed.

Definition rmt_inv b s D P (x : rmt_song) : Prop :=
  (exists L, rs_inf x = prog b s D L P /\ songs_ok s D L P) /\ len (rs_gseen x) = 256 /\ len (rs_seen x) = 256 /\ 0 <= rs_pos x /\ rmt_ok (rs_r x).

Lemma parse_rmt_song_wpg b songLen posShift s D L P seen pos : 0 <= i_fastplay b -> 0 <= songLen <= 255 -> posShift = 2 \/ posShift = 3 ->
  s < 32 -> songs_ok s D L P -> len seen = 256 -> 0 <= pos < 256 ->
  wpg B F (parse_rmt_song fuel module (prog b s D L P) seen songLen posShift pos)
    (fun r => exists s' D' L' P', fst r = prog b s' D' L' P' /\ songs_ok s' D' L' P' /\ len (snd r) = 256).
Proof.
  intros Hfp Hsl Hps Hs Hok Hseen Hpos. unfold parse_rmt_song. apply wpg_bind, wpg_get_word; [intros _ _|now right].
  apply wpg_bind, wpg_get; [intros _|now right]. do 3 (apply wpg_bind, wpg_get_word; [intros _ _|now right]). cbv zeta. apply wpg_bind.
  assert (Hn : Z.of_nat (Z.to_nat (Z.shiftl 1 posShift)) <= 8) by (destruct Hps as [-> | ->]; cbn; lia).
  match goal with |- wpg _ _ (loop fuel (rmt_song_step fuel module songLen posShift ?a1 ?a2 ?a3 ?a4) _) _ => generalize a4 a1 a2 a3 end. intros a4 a1 a2 a3.
  eapply wpg_mono; [apply (loop_wpg B F (rmt_song_step fuel module songLen posShift a1 a2 a3 a4) (rmt_inv b s D P) (fun x => zeros (rs_seen x))) with
    (P := fun r : info * list Z * option rmt => (exists L, fst (fst r) = prog b s D L P /\ songs_ok s D L P) /\ len (snd (fst r)) = 256 /\ match snd r with Some r => rmt_ok r | None => True end)|].
  - intros. apply zeros_range.
  - intros x ((L1 & E1 & Hok1) & H2 & H3 & H4 & H5). unfold rmt_song_step.
    destruct (Z.ltb_spec (rs_pos x) songLen) as [C|C]; [|cbn [wpg leave fst snd]; eauto].
    apply wpg_bind, wpg_get; [intros _|left; lia]. destruct (Z.eqb_spec (at_ (rs_seen x) (rs_pos x)) 0) as [E0|E0]; cbn [negb].
    2:{ apply wpg_bind. rewrite E1. destruct (negb _); [apply wpg_set_loop; [assumption|assumption|]; intros L' HL'|];
        cbn [wpg leave fst snd]; eauto 6 using songs_ok_loops. }
    apply wpg_bind, wpg_set_nth; [lia|]. apply wpg_bind, wpg_set_nth; [lia|].
    assert (Hz : zeros (upd (rs_seen x) (Z.to_nat (rs_pos x)) 1) < zeros (rs_seen x)) by (rewrite zeros_upd; [lia|unfold len in H3; lia|exact E0|lia]).
    cbv zeta. apply wpg_bind, wpg_get; [intros _|now right]. destruct (_ =? 254).
    + apply wpg_bind, wpg_get; [intros _|now right].
      match goal with |- context [at_ module ?i] => pose proof (at_nonneg module i Hb) end.
      cbn [wpg continue_]. unfold rmt_inv. cbn [rs_inf rs_gseen rs_seen rs_pos rs_r]. rewrite !len_upd.
      split; [|now right]. split; [eauto|]. split; [assumption|]. split; [assumption|]. split; [|assumption]. lia.
    + apply wpg_bind, rmt_patterns_wpg; try assumption; try lia.
      { cbn [wpg leave fst snd]. rewrite len_upd. eauto. }
      intros r Hr. apply wpg_bind, wpg_get; [intros _|now right]. pose proof (at_nonneg module 10 Hb). apply wpg_bind.
      eapply wpg_mono; [apply (loop_wpg B F _ rmt_ok (fun r => Z.max 0 (r_rows r)) rmt_ok)|].
      * intros. lia.
      * intros r0 H0. unfold rmt_row_step. cbv zeta.
        assert (H0' : rmt_ok (mkRmt (r_tempo r0) (r_frames r0) (r_rows r0 - 1) (r_begin r0) (r_off r0) (r_blank r0) (r_insNo r0) (r_insFrame r0) (r_volVal r0) (r_volFrame r0))) by rok H0.
        destruct (Z.leb_spec 0 (r_rows r0 - 1)) as [C1|C1]; [|exact H0']. apply wpg_bind, rmt_channels_wpg; try assumption; try lia. intros r1 H1 Hr1.
        cbn [r_rows] in Hr1. cbn [wpg continue_ r_rows]. split; [|right; lia]. rok H1.
        -- destruct (0 <=? _); lia.
        -- intros c Hc. specialize (ro_ch0 c Hc). destruct (0 <=? _); lia.
      * rok Hr.
      * cbn [r_rows]. apply (fuel_256 F module fuel Hfuel'). lia.
      * intros r1 H1. cbn [wpg continue_]. unfold rmt_inv. cbn [rs_inf rs_gseen rs_seen rs_pos rs_r].
        rewrite mark_seen_len, mark_seen_zeros, !len_upd by lia. split; [|now right]. split; [eauto|]. split; [assumption|]. split; [assumption|]. split; [|assumption]. lia.
  - unfold rmt_inv. cbn [rs_inf rs_gseen rs_seen rs_pos rs_r]. split; [eauto|]. split; [assumption|]. split; [reflexivity|]. split; [lia|].
    pose proof (at_nonneg module 11 Hb).
    constructor; cbn [r_tempo r_frames r_begin r_off r_blank r_insNo r_insFrame r_volVal r_volFrame]; try reflexivity; try lia.
    intros c Hc. assert (Z0 : at_ (repeat 0 8) c = 0).
    { unfold at_. destruct (nth_in_or_default (Z.to_nat c) (repeat 0 8) 0) as [Hin|Hd]; [|exact Hd]. now apply repeat_spec in Hin. }
    rewrite Z0. lia.
  - cbn [rs_seen]. rewrite zeros_repeat. apply (fuel_256 F module fuel Hfuel'). lia.
  - intros [[inf gs] [r|]] [(L' & E & Hok') [Hg Hr]]; cbn [fst snd] in *; subst inf; [|cbn [wpg fst snd]; eauto 8].
    apply wpg_bind, rmt_sounding_wpg; try assumption; try lia; [apply at_nonneg; assumption|]. intros fr. apply wpg_bind.
    assert (K : forall L2 fr, len L2 = 32 -> wpg B F
      (if 0 <? fr then inf <- add_song (prog b s D L2 P) fr ;; Ok (inf, gs) else Ok (prog b s D L2 P, gs))
      (fun r => exists s' D' L' P', fst r = prog b s' D' L' P' /\ songs_ok s' D' L' P' /\ len (snd r) = 256)).
    { intros L2 fr2 H2. assert (Hok2 : songs_ok s D L2 P) by eauto using songs_ok_loops. destruct (Z.ltb_spec 0 fr2).
      - apply wpg_bind, wpg_add_song; try assumption; [lia|now right|]. intros D' HD'. cbn [wpg fst snd]. eauto 8.
      - cbn [wpg fst snd]. eauto 8. }
    destruct (_ <? _); [|apply K; destruct Hok'; assumption].
    apply wpg_bind. destruct (100 <? _); [|apply K; destruct Hok'; assumption].
    apply wpg_set_loop; [assumption|assumption|]. intros L2 H2. apply K. assumption.
Qed.

Lemma rmt_title_wpg n i (Q : list Z -> Prop) : (forall t, len t <= Z.of_nat n -> Forall meta_char t -> Q t) -> wpg B F (rmt_title module n i) Q.
Proof.
  revert i Q. induction n as [|n IH]; intros i Q HQ; cbn [rmt_title]; [apply HQ; [cbn; lia|constructor]|].
  destruct (_ <? _); [|apply HQ; [cbn; lia|constructor]]. apply wpg_bind, wpg_get; [intros _|now right].
  destruct (_ =? 0); [apply HQ; [cbn; lia|constructor]|]. apply wpg_bind, IH. intros t H1 H2. cbn [wpg]. apply HQ.
  - rewrite len_cons. lia.
  - constructor; [|assumption]. destruct (is_valid_char _) eqn:E; [now apply valid_char_meta|]. unfold meta_char. lia.
Qed.

Lemma validate_rmt_wpg (Q : bool -> Prop) : (forall v, (v = true -> 48 <= len module) -> Q v) -> wpg B F (validate_rmt module) Q.
Proof.
  intros HQ. unfold validate_rmt. destruct (Z.ltb_spec (len module) 48) as [C|C]; [apply HQ; discriminate|].
  apply wpg_bind, wp_wpg, has_string_at_wp; [lia|change (len (str "RMT")) with 3; lia|]. intros [|]; [|apply HQ; discriminate].
  apply wpg_bind, wpg_get; [intros _|left; lia]. apply HQ. auto.
Qed.

Lemma parse_rmt_wpg inf (Q : info -> Prop) : 0 <= i_fastplay inf ->
  i_durations inf = repeat (-1) 32 -> i_loops inf = repeat false 32 -> len (i_songPos inf) = 32 -> 1 <= i_channels inf <= 2 ->
  (forall m c s D L P f t, 0 <= m <= 65535 -> (m = word_at module 2 /\ 48 <= len module) -> 1 <= c <= 2 -> 1 <= s -> songs_ok s D L P -> In f [312; 156; 104; 78] -> meta_text t ->
     Q (prog (set_title t (set_player 1536 (set_fastplay f (set_music m (set_type RMT (set_channels c inf)))))) s D L P)) ->
  wpg B F (parse_rmt fuel inf module) Q.
Proof.
  intros Hfp HD HL HP Hch HQ. unfold parse_rmt. apply wpg_bind, validate_rmt_wpg. intros v Hv. destruct v; cbn [negb]; [|exact I].
  specialize (Hv eq_refl). apply wpg_bind, wpg_get; [intros _|now right]. apply wpg_bind.
  match goal with |- wpg _ _ ?e ?K => assert (HK : forall c ps, 1 <= c <= 2 -> ps = 2 \/ ps = 3 -> K (set_channels c inf, ps)) end.
  2:{ destruct (_ =? 52); [apply (HK (i_channels inf) 2); auto|]. destruct (_ =? 56); [apply (HK 2 3); [lia|now right]|exact I]. }
  intros c ps Hc Hps. cbv beta iota.
  apply wpg_bind, wpg_get; [intros _|now right]. set (pf := at_ module 12). clearbody pf.
  destruct (Z.ltb_spec pf 1) as [C2|C2]; cbn [orb]; [exact I|]. destruct (Z.ltb_spec 4 pf) as [C3|C3]; [exact I|].
  assert (HF : In (Z.quot 312 pf) [312; 156; 104; 78]) by now apply perframe_fastplay.
  apply wpg_bind, parse_module_wpg; [assumption|lia|now left|]. intros m Hm Em _. assert (EM : m = word_at module 2 /\ 48 <= len module) by (split; [exact Em|lia]). clear Em.
  do 2 (apply wpg_bind, wpg_get_word; [intros _ _|now right]). cbv zeta. apply wpg_bind.
  match goal with |- wpg _ _ ?e ?K => assert (HK : forall b, K b) end.
  2:{ destruct (_ && _); [|apply HK]. apply wpg_bind, wpg_get; [intros _|now right]. apply HK. }
  intros extra. cbv beta. match goal with |- context [256 <=? ?x] => set (songLen := x) end. clearbody songLen.
  destruct (Z.leb_spec 256 songLen) as [C1|C1]; [exact I|]. apply wpg_bind.
  set (b := set_music m (set_type RMT (set_channels c inf))).
  change (set_songs 0 b) with (prog b 0 (i_durations inf) (i_loops inf) (i_songPos inf)).
  assert (Hok : songs_ok 0 (i_durations inf) (i_loops inf) (i_songPos inf)) by (rewrite HD, HL; now apply songs_ok_init).
  assert (K : forall s' D' L' P', songs_ok s' D' L' P' -> wpg B F
    (if i_songs (set_player 1536 (set_fastplay (Z.quot 312 pf) (prog b s' D' L' P'))) =? 0 then Fail
     else t <- rmt_title module 127 (10 + (word_at module 4 + 1 - i_music b)) ;;
       Ok (set_title t (set_player 1536 (set_fastplay (Z.quot 312 pf) (prog b s' D' L' P'))))) Q).
  { intros s' D' L' P' Hok'. change (i_songs _) with s'. destruct (Z.eqb_spec s' 0); [exact I|].
    apply wpg_bind, rmt_title_wpg. intros t T1 T2. cbn [wpg].
    apply (HQ m c s' D' L' P' (Z.quot 312 pf) t); try assumption; [destruct Hok'; lia|]. split; [lia|assumption]. }
  destruct (Z.leb_spec 0 songLen) as [C4|C4].
  - apply songs_by_pos_wpg; try assumption; try reflexivity; try lia.
    intros. apply parse_rmt_song_wpg; try assumption. lia.
  - replace (Z.to_nat songLen) with O by lia. now apply K.
Qed.
End Rmt.
