(* Native parsers: safety, termination and guarantees.  Part 1: common lemmas, CMC, DLT. *)
From Coq Require Import String.
From Verif Require Import Base BaseFacts InfoModel InfoSpec Loop NativeModel NativeSpec SapSpec.
From Verif Require Import InfoProofs.

Definition only_ovf (r : ub_reason) : Prop := r = UbOverflow.
Definition ovf_or_read (r : ub_reason) : Prop := r = UbOverflow \/ r = UbRead.
Definition no_ub (r : ub_reason) : Prop := False.

(* ---- the part of ASAPInfo that song parsing changes ---- *)
Definition prog (b : info) (s : Z) (D : list Z) (L : list bool) (P : list Z) : info :=
  mkInfo (i_filename b) (i_author b) (i_title b) (i_date b) (i_channels b) s (i_defsong b) D L (i_ntsc b) (i_type b)
    (i_fastplay b) (i_music b) (i_init b) (i_player b) (i_covox b) (i_headerLen b) P.

Record songs_ok (s : Z) (D : list Z) (L : list bool) (P : list Z) : Prop := {
  so_songs : 0 <= s <= 32;
  so_durations : exists known, D = known ++ repeat (-1) (Z.to_nat (32 - s)) /\ len known = s /\ Forall (fun d => 0 <= d) known;
  so_loops : len L = 32;
  so_songPos : len P = 32
}.

Lemma songs_ok_len s D L P : songs_ok s D L P -> len D = 32.
Proof. intros [H (k & -> & Hk & _) _ _]. rewrite len_app, len_repeat. lia. Qed.

Lemma songs_ok_loops s D L P L' : songs_ok s D L P -> len L' = 32 -> songs_ok s D L' P.
Proof. intros [] H. constructor; assumption. Qed.

Lemma songs_ok_pos s D L P P' : songs_ok s D L P -> len P' = 32 -> songs_ok s D L P'.
Proof. intros [] H. constructor; assumption. Qed.

Lemma songs_ok_init P : len P = 32 -> songs_ok 0 (repeat (-1) 32) (repeat false 32) P.
Proof. intros H. constructor; [lia| |reflexivity|exact H]. exists []. repeat split. constructor. Qed.

Lemma upd_app {A} (l r : list A) x v : upd (l ++ x :: r) (length l) v = l ++ v :: r.
Proof. induction l as [|y l IH]; [reflexivity|]. cbn [app length upd]. now rewrite IH. Qed.

Lemma wpg_set_loop B F b s D L P v (Q : info -> Prop) : songs_ok s D L P -> s < 32 ->
  (forall L', len L' = 32 -> Q (prog b s D L' P)) -> wpg B F (set_song_loop v (prog b s D L P)) Q.
Proof.
  intros [] Hs HQ. unfold set_song_loop. apply wpg_bind. cbn [prog i_loops i_songs]. apply wpg_set_nth; [lia|].
  apply HQ. now rewrite len_upd.
Qed.

Lemma wpg_set_pos B F b s D L P v (Q : info -> Prop) : songs_ok s D L P -> s < 32 ->
  (forall P', len P' = 32 -> Q (prog b s D L P')) -> wpg B F (set_song_pos v (prog b s D L P)) Q.
Proof.
  intros [] Hs HQ. unfold set_song_pos. apply wpg_bind. cbn [prog i_songPos i_songs]. apply wpg_set_nth; [lia|].
  apply HQ. now rewrite len_upd.
Qed.

Lemma wpg_add_song B F b s D L P calls (Q : info -> Prop) : songs_ok s D L P -> s < 32 -> 0 <= calls -> 0 <= i_fastplay b ->
  (calls * i_fastplay b <= int_max \/ B UbOverflow) ->
  (forall D', songs_ok (s + 1) D' L P -> Q (prog b (s + 1) D' L P)) -> wpg B F (add_song (prog b s D L P) calls) Q.
Proof.
  intros Hok Hs Hc Hf Hov HQ. unfold add_song. apply wpg_bind. cbn [prog i_fastplay i_durations i_songs].
  assert (0 <= calls * i_fastplay b) by lia. apply wpg_chk.
  2:{ destruct Hov; [left; unfold int_min; lia|now right]. }
  intros Hr. apply wpg_bind. pose proof (songs_ok_len _ _ _ _ Hok). destruct Hok as [H1 (k & -> & Hk & Fk) H3 H4].
  apply wpg_set_nth; [lia|]. cbn [wpg]. unfold set_songs, set_durations. cbn [i_songs].
  apply HQ. constructor; [lia| |assumption|assumption].
  exists (k ++ [Z.quot (calls * i_fastplay b * 38000) 591149]). split; [|split].
  - replace (Z.to_nat s) with (length k) by (unfold len in Hk; lia).
    replace (Z.to_nat (32 - s)) with (S (Z.to_nat (32 - (s + 1)))) by lia. cbn [repeat]. rewrite upd_app, <- app_assoc. reflexivity.
  - rewrite len_app, len_cons, len_nil. lia.
  - apply Forall_app. split; [assumption|]. repeat constructor. apply Z.quot_pos; lia.
Qed.

(* ---- words, module header ---- *)
Lemma at_nonneg l i : bytes l -> 0 <= at_ l i <= 255.
Proof. intros H. pose proof (at_byte' l i H). unfold byte in *. lia. Qed.

Definition word_at (l : list Z) (i : Z) : Z := at_ l i + 256 * at_ l (i + 1).

Lemma word_range l i : bytes l -> 0 <= word_at l i <= 65535.
Proof. intros H. unfold word_at. pose proof (at_nonneg l i H). pose proof (at_nonneg l (i + 1) H). lia. Qed.

Lemma wpg_get_word B F l i (P : Z -> Prop) : (0 <= i -> i + 1 < len l -> P (word_at l i)) -> (0 <= i /\ i + 1 < len l \/ B UbRead) ->
  wpg B F (get_word l i) P.
Proof.
  intros H1 H2. unfold get_word. apply wpg_bind, wpg_get; [|destruct H2; [left; lia|now right]]. intros R1.
  apply wpg_bind, wpg_get; [|destruct H2; [left; lia|now right]]. intros R2. cbn [wpg]. rewrite Z.shiftl_mul_pow2 by lia.
  change (2 ^ 8) with 256. rewrite Z.mul_comm. apply H1; lia.
Qed.

Lemma parse_module_wpg B F inf module (Q : info -> Prop) : bytes module -> 6 <= len module ->
  (B UbRead \/ i_type inf <> RMT) ->
  (forall m, 0 <= m <= 65535 -> m = word_at module 2 ->
     (i_type inf <> RMT -> word_at module 4 + 1 - m = len module - 6) -> Q (set_music m inf)) ->
  wpg B F (parse_module inf module) Q.
Proof.
  intros Hb Hl Ht HQ. unfold parse_module.
  apply wpg_bind, wpg_get; [intros _|left; lia]. apply wpg_bind, wpg_get; [intros _|left; lia].
  destruct (negb _); [exact I|].
  apply wpg_bind, wpg_get_word; [intros _ _|left; lia]. apply wpg_bind, wpg_get_word; [intros _ _|left; lia].
  destruct (_ && _); [exact I|].
  pose proof (word_range module 2 Hb). pose proof (word_range module 4 Hb).
  destruct (Z.eqb_spec (6 + (word_at module 4 + 1 - word_at module 2)) (len module)) as [E|E].
  { apply HQ; [assumption|reflexivity|]. intros _. lia. }
  destruct (module_type_eqb (i_type inf) RMT) eqn:R; cbn [negb orb]; [|exact I].
  assert (RT : i_type inf = RMT) by (destruct (i_type inf); (reflexivity || discriminate)).
  assert (BR : B UbRead) by (destruct Ht; [assumption|contradiction]).
  destruct (_ <? _); [exact I|].
  apply wpg_bind, wpg_get_word; [intros _ _|now right]. destruct (negb _); [exact I|].
  apply wpg_bind, wpg_get_word; [intros _ _|now right]. destruct (negb _); [exact I|].
  apply HQ; [assumption|reflexivity|]. congruence.
Qed.

(* ---- counting the zeros of a flag array ---- *)
Fixpoint zeros (l : list Z) : Z := match l with [] => 0 | x :: r => (if x =? 0 then 1 else 0) + zeros r end.

Lemma zeros_range l : 0 <= zeros l <= len l.
Proof. induction l as [|x r IH]; cbn [zeros]; [cbn; lia|]. rewrite len_cons. destruct (x =? 0); lia. Qed.

Lemma zeros_upd l i v : (i < length l)%nat -> nth i l 0 = 0 -> v <> 0 -> zeros (upd l i v) = zeros l - 1.
Proof.
  revert i. induction l as [|x r IH]; intros i Hi H0 Hv; [cbn in Hi; lia|]. destruct i as [|i]; cbn [upd zeros].
  - cbn [nth] in H0. subst. destruct (Z.eqb_spec v 0); [contradiction|]. change (0 =? 0) with true. cbv iota. lia.
  - cbn [nth length] in *. rewrite IH by (lia || assumption). lia.
Qed.

Lemma zeros_map f l : (forall x, f x = 0 <-> x = 0) -> zeros (map f l) = zeros l.
Proof.
  intros H. induction l as [|x r IH]; [reflexivity|]. cbn [map zeros]. rewrite IH. f_equal.
  destruct (H x) as [H1 H2].
  destruct (Z.eqb_spec x 0) as [E|E]; destruct (Z.eqb_spec (f x) 0) as [E'|E']; try reflexivity; exfalso; auto.
Qed.

Lemma zeros_app a b : zeros (a ++ b) = zeros a + zeros b.
Proof. induction a as [|x r IH]; [reflexivity|]. cbn [app zeros]. rewrite IH. lia. Qed.

Lemma zeros_repeat n : zeros (repeat 0 n) = Z.of_nat n.
Proof. induction n as [|n IH]; [reflexivity|]. cbn [repeat zeros]. rewrite IH. change (0 =? 0) with true. cbv iota. lia. Qed.

Lemma len_map {A C} (f : A -> C) l : len (map f l) = len l.
Proof. unfold len. now rewrite map_length. Qed.

(* ------------------------------------------------------------------ *)
(* CMC *)

Section Cmc.
Variable B : ub_reason -> Prop.
Variable F : Prop.
Hypothesis Bovf : F -> B UbOverflow.
Variable module : list Z.
Hypothesis Hb : bytes module.
Hypothesis Hl : 774 <= len module.

Definition cmc_inv (b : info) (s : Z) (D : list Z) (P : list Z) (c : cmc) : Prop :=
  (exists L, c_inf c = prog b s D L P /\ songs_ok s D L P)
  /\ len (c_seen c) = 85 /\ (0 <= c_calls c /\ (F \/ c_calls c <= 22797 * (85 - zeros (c_seen c)))) /\ 0 <= c_tempo c <= 255
  /\ (0 <= c_repStart c < 85 \/ c_pos c = 85) /\ (F \/ c_repTimes c <= 0).

Lemma cmc_step_wpg b s D P c : s < 32 ->
  (forall p, cmc_repeat_line (module_type_eqb (i_type b) CMS) module p -> F) ->
  cmc_inv b s D P c ->
  wpg B F (cmc_step module c) (fun x => match x with
    | inl c' => cmc_inv b s D P c' /\ (F \/ zeros (c_seen c') < zeros (c_seen c))
    | inr (inf, calls) => (exists L, inf = prog b s D L P /\ songs_ok s D L P) /\ 0 <= calls /\ (F \/ calls <= 1937745) end).
Proof.
  intros Hs Hrep ((L & EL & HL) & Hseen & (Hcalls & Hcb) & Htempo & HrepS & HrepT). unfold cmc_step.
  assert (Hcb' : F \/ c_calls c <= 1937745) by (destruct Hcb; [now left|right; pose proof (zeros_range (c_seen c)); lia]).
  destruct (Z.leb_spec 0 (c_pos c)) as [P1|P1]; cbn [andb negb]; [|split; [eauto|split; assumption]].
  destruct (Z.ltb_spec (c_pos c) 85) as [P2|P2]; cbn [andb negb]; [|split; [eauto|split; assumption]].
  set (rep := (c_pos c =? c_repEnd c) && (0 <? c_repTimes c)).
  assert (Hf : rep = true -> F).
  { unfold rep. intros E. destruct HrepT; [assumption|lia]. }
  set (seen := if rep then map (fun v => if (v =? 1) || (v =? 3) then 0 else v) (c_seen c) else c_seen c).
  assert (Hseen' : len seen = 85) by (unfold seen; destruct rep; [rewrite len_map|]; assumption).
  assert (Hz : F \/ zeros seen = zeros (c_seen c)) by (unfold seen; destruct rep; auto).
  set (repTimes := if rep then c_repTimes c - 1 else c_repTimes c).
  assert (HrepT' : F \/ repTimes <= 0) by (unfold repTimes; destruct rep; auto).
  set (pos := if rep then c_repStart c else c_pos c).
  assert (Hpos : 0 <= pos < 85) by (unfold pos; destruct rep; lia).
  assert (HrepS' : 0 <= c_repStart c < 85) by lia.
  clearbody rep seen repTimes pos. cbv zeta.
  apply wpg_bind, wpg_get; [intros _|left; lia]. destruct (Z.eqb_spec (at_ seen pos) 0) as [E0|E0]; cbn [negb].
  2:{ apply wpg_bind. rewrite EL. destruct (negb _); [apply (wpg_set_loop B F b s D L P); [assumption|assumption|]; intros L' HL'|];
      cbn [wpg leave]; (split; [|split; assumption]); eauto using songs_ok_loops. }
  apply wpg_bind, wpg_set_nth; [lia|].
  assert (Hz' : F \/ zeros (upd seen (Z.to_nat pos) 1) < zeros (c_seen c)).
  { destruct Hz as [?|Hz]; [now left|right]. rewrite zeros_upd; [lia|unfold len in Hseen'; lia|exact E0|lia]. }
  set (seen1 := upd seen (Z.to_nat pos) 1) in *.
  assert (Hs1 : len seen1 = 85) by (unfold seen1; now rewrite len_upd).
  clearbody seen1.
  apply wpg_bind, wpg_get; [intros _|left; lia]. apply wpg_bind, wpg_get; [intros _|left; lia]. apply wpg_bind, wpg_get; [intros _|left; lia].
  pose proof (at_nonneg module (603 + pos) Hb) as Rp2. pose proof (at_nonneg module (688 + pos) Hb) as Rp3.
  destruct (_ || _).
  { cbn [wpg continue_]. split; [|exact Hz']. unfold cmc_inv. cbn [c_inf c_pos c_tempo c_calls c_repStart c_repEnd c_repTimes c_seen].
    repeat split; eauto; try lia. destruct Hz', Hcb; auto. right. lia. }
  apply wpg_bind. unfold cmc_line. rewrite EL. change (i_type (prog b s D L P)) with (i_type b).
  set (p2 := at_ module (603 + pos)) in *. set (p3 := at_ module (688 + pos)) in *.
  set (p1 := Z.lor (at_ module (518 + pos)) (if module_type_eqb (i_type b) CMS then 7 else 15)).
  assert (Hr : p1 = 223 -> F).
  { intros E. apply (Hrep pos). split; [lia|]. exact E. }
  clearbody p1 p2 p3. cbv zeta.
  assert (Hgo : forall inf' pos' tempo' calls' rs re rt seen', (exists L, inf' = prog b s D L P /\ songs_ok s D L P) -> len seen' = 85 -> c_calls c <= calls' <= c_calls c + 22797 ->
     0 <= tempo' <= 255 -> (0 <= rs < 85 \/ pos' = 85) -> (F \/ rt <= 0) -> (F \/ zeros seen' < zeros (c_seen c)) ->
     wpg B F (continue_ (mkCmc inf' pos' tempo' calls' rs re rt seen')) (fun x => match x with
       | inl c' => cmc_inv b s D P c' /\ (F \/ zeros (c_seen c') < zeros (c_seen c))
       | inr (inf, calls) => (exists L, inf = prog b s D L P /\ songs_ok s D L P) /\ 0 <= calls /\ (F \/ calls <= 1937745) end)).
  { intros inf' pos' tempo' calls' rs re rt seen' G1 G2 G3 G4 G5 G6 G7. cbn [wpg continue_]. unfold cmc_inv.
    cbn [c_inf c_pos c_tempo c_calls c_repStart c_repEnd c_repTimes c_seen].
    split; [|assumption]. repeat split; auto; try lia. destruct G7, Hcb; auto. right. lia. }
  repeat match goal with |- context [if ?x =? ?y then _ else _] => destruct (Z.eqb_spec x y) end;
  repeat match goal with |- context [if (_ =? _) || _ then _ else _] => destruct (_ || _) end.
  all: try (cbn [wpg]; apply Hgo; eauto; lia).
  all: try (destruct (p2 <? 128) eqn:?; cbn [wpg]; apply Hgo; eauto; try lia; destruct (p3 <? 128) eqn:?; lia).
  all: try (apply wpg_bind, (wpg_set_loop B F b s D L P); [assumption|assumption|]; intros L' HL'; cbn [wpg]; apply Hgo; eauto using songs_ok_loops; lia).
  all: cbn [wpg]; apply Hgo; eauto.
  all: rewrite ?len_map; try assumption.
  { destruct (module_type_eqb (i_type b) CM3); lia. }
  all: destruct Hz' as [?|Hz']; [now left|right]; rewrite zeros_map; [exact Hz'|].
  all: intros x; destruct (Z.eqb_spec x 1); [destruct (0 <? repTimes); lia|tauto].
Qed.

Lemma parse_cmc_song_wpg fuel b s D L P pos (Q : info -> Prop) : s < 32 -> 0 <= i_fastplay b <= 1000 ->
  (forall p, cmc_repeat_line (module_type_eqb (i_type b) CMS) module p -> F) -> (F \/ 85 <= Z.of_nat fuel) ->
  songs_ok s D L P ->
  (forall D' L', songs_ok (s + 1) D' L' P -> Q (prog b (s + 1) D' L' P)) ->
  wpg B F (parse_cmc_song fuel module (prog b s D L P) pos) Q.
Proof.
  intros Hs Hfp Hrep Hfuel Hok HQ. unfold parse_cmc_song. apply wpg_bind, wpg_get; [intros _|left; lia]. apply wpg_bind.
  eapply wpg_mono; [apply (loop_wpg B F (cmc_step module) (cmc_inv b s D P) (fun c => zeros (c_seen c))) with
    (P := fun r : info * Z => (exists L, fst r = prog b s D L P /\ songs_ok s D L P) /\ 0 <= snd r /\ (F \/ snd r <= 1937745))|].
  - intros c _. apply zeros_range.
  - intros c Hc. eapply wpg_mono; [apply cmc_step_wpg; eassumption|]. intros [c'|[inf calls]] H; exact H.
  - unfold cmc_inv. cbn [c_inf c_pos c_tempo c_calls c_repStart c_repEnd c_repTimes c_seen].
    pose proof (at_nonneg module 25 Hb). rewrite zeros_repeat. repeat split; try lia; eauto.
  - cbn [c_seen]. rewrite zeros_repeat. exact Hfuel.
  - intros [inf calls] ((L' & E & HL') & Hc & Hc'). cbn [fst snd] in *. subst inf.
    apply (wpg_add_song B F b s D L' P); auto; [lia|]. destruct Hc'; [right; auto|left]. change int_max with 2147483647. nia.
Qed.

Lemma cmc_songs_wpg fuel b P n pos s D L (Q : info -> Prop) : 0 <= pos -> pos + Z.of_nat n <= 84 -> 0 <= i_fastplay b <= 1000 ->
  (forall p, cmc_repeat_line (module_type_eqb (i_type b) CMS) module p -> F) -> (F \/ 85 <= Z.of_nat fuel) ->
  songs_ok s D L P ->
  (forall s' D' L', s <= s' -> songs_ok s' D' L' P -> Q (prog b s' D' L' P)) ->
  wpg B F (cmc_songs fuel module (prog b s D L P) n pos) Q.
Proof.
  intros H0 H1 Hfp Hrep Hfuel. revert pos s D L H0 H1.
  induction n as [|n IH]; intros pos s D L H0 H1 Hok HQ; cbn [cmc_songs]; [apply HQ; [lia|assumption]|].
  change (i_songs (prog b s D L P)) with s. destruct (Z.ltb_spec s 32) as [C|C]; [|apply HQ; [lia|assumption]].
  apply wpg_bind, wpg_get; [intros _|left; lia]. apply wpg_bind. destruct (_ || _).
  - apply parse_cmc_song_wpg; auto. intros D' L' Hok'. apply IH; [lia|lia|assumption|]. intros. apply HQ; [lia|assumption].
  - cbn [wpg]. apply IH; [lia|lia|assumption|]. intros. apply HQ; [lia|assumption].
Qed.

Lemma any_below_wpg l (Q : bool -> Prop) : Forall (fun x => 0 <= fst x < len module \/ B UbRead) l -> (forall b, Q b) -> wpg B F (any_below module l) Q.
Proof.
  intros H HQ. induction l as [|[i v] r IH]; cbn [any_below]; [apply HQ|]. inversion H as [|? ? H1 H2]; subst. cbn [fst] in H1.
  apply wpg_bind, wpg_get; [intros _|exact H1]. destruct (_ <? _); [apply HQ|auto].
Qed.

Lemma cmc_last_pos_wpg ch n (Q : Z -> Prop) : Z.of_nat n <= 84 -> (ch <> 2 \/ 1028 <= len module \/ B UbRead) ->
  (forall p, -1 <= p < Z.of_nat n -> Q p) -> wpg B F (cmc_last_pos module ch n) Q.
Proof.
  intros Hn Hc. revert Q. induction n as [|n IH]; intros Q HQ; cbn [cmc_last_pos]; [apply HQ; lia|].
  assert (IH' : wpg B F (cmc_last_pos module ch n) Q) by (apply IH; [lia|]; intros; apply HQ; lia).
  apply wpg_bind, any_below_wpg; [repeat (apply Forall_cons; [cbn [fst]; left; lia|]); apply Forall_nil|]. intros [|]; [apply HQ; lia|].
  destruct (Z.eqb_spec ch 2); [|exact IH'].
  apply wpg_bind, any_below_wpg; [repeat (apply Forall_cons; [cbn [fst]; (destruct Hc as [?|[?|?]]; [contradiction|left; lia|now right])|]); apply Forall_nil|].
  intros [|]; [apply HQ; lia|exact IH'].
Qed.
End Cmc.

Lemma parse_cmc_wpg (B : ub_reason -> Prop) (F : Prop) fuel type inf module (Q : info -> Prop) :
  (F -> B UbOverflow) -> bytes module -> type <> RMT -> 0 <= i_fastplay inf <= 1000 ->
  (forall p, cmc_repeat_line (module_type_eqb type CMS) module p -> F) -> (F \/ 85 <= Z.of_nat fuel) ->
  (i_channels inf <> 2 \/ 1028 <= len module \/ B UbRead) ->
  i_durations inf = repeat (-1) 32 -> i_loops inf = repeat false 32 -> len (i_songPos inf) = 32 ->
  (forall m s D L, 0 <= m <= 65535 -> (m = word_at module 2 /\ 774 <= len module) -> word_at module 4 + 1 - m = len module - 6 ->
     1 <= s -> songs_ok s D L (i_songPos inf) ->
     Q (prog (set_music m (set_type type inf)) s D L (i_songPos inf))) ->
  wpg B F (parse_cmc fuel type inf module) Q.
Proof.
  intros Bo Hb Ht Hfp Hrep Hfuel Hch HD HL HP HQ. unfold parse_cmc. destruct (Z.ltb_spec (len module) 774) as [C|C]; [exact I|].
  apply wpg_bind, parse_module_wpg; [assumption|lia|right; exact Ht|]. intros m Hm Em Hlen.
  apply wpg_bind, cmc_last_pos_wpg; [assumption|lia|exact Hch|]. intros lastPos Hlp.
  apply wpg_bind.
  change (set_songs 0 (set_music m (set_type type inf))) with
    (prog (set_music m (set_type type inf)) 0 (i_durations inf) (i_loops inf) (i_songPos inf)).
  assert (Hok : songs_ok 0 (i_durations inf) (i_loops inf) (i_songPos inf)) by (rewrite HD, HL; now apply songs_ok_init).
  apply parse_cmc_song_wpg; auto; try lia. intros D' L' Hok'.
  apply cmc_songs_wpg; auto; try lia; intros; apply HQ; auto; lia.
Qed.

(* ------------------------------------------------------------------ *)
(* DLT *)

Section Dlt.
Variable B : ub_reason -> Prop.
Variable F : Prop.
Variable module : list Z.
Hypothesis Hb : bytes module.
Hypothesis Hl : 11270 <= len module.

Lemma is_dlt_track_empty_wpg pos (Q : bool -> Prop) : 0 <= pos < 128 -> (forall b, Q b) -> wpg B F (is_dlt_track_empty module pos) Q.
Proof.
  intros Hp HQ. unfold is_dlt_track_empty. apply wpg_bind, any_below_wpg.
  - repeat (apply Forall_cons; [cbn [fst]; left; lia|]); apply Forall_nil.
  - intros b. apply HQ.
Qed.

Lemma shiftl_mul a n : 0 <= n -> Z.shiftl a n = a * 2 ^ n.
Proof. intros H. now apply Z.shiftl_mul_pow2. Qed.

Lemma is_dlt_pattern_end_wpg pos i n ch (Q : bool -> Prop) : 0 <= pos < 128 -> 0 <= i < 64 -> 0 <= ch -> ch + Z.of_nat n <= 4 ->
  (forall b, Q b) -> wpg B F (is_dlt_pattern_end module pos i n ch) Q.
Proof.
  intros Hp Hi Hc Hn HQ. revert ch Hc Hn. induction n as [|n IH]; intros ch Hc Hn; cbn [is_dlt_pattern_end]; [apply HQ|].
  rewrite (shiftl_mul ch 8) by lia. change (2 ^ 8) with 256.
  apply wpg_bind, wpg_get; [intros _|left; lia]. pose proof (at_nonneg module (8198 + ch * 256 + pos) Hb) as R.
  set (pat := at_ module (8198 + ch * 256 + pos)) in *. clearbody pat.
  apply wpg_bind.
  assert (K : forall e : bool, wpg B F (if e then Ok true else is_dlt_pattern_end module pos i n (ch + 1)) Q).
  { intros [|]; [apply HQ|]. apply IH; lia. }
  destruct (Z.ltb_spec pat 64); [|apply K].
  rewrite (shiftl_mul pat 7), (shiftl_mul i 1) by lia. change (2 ^ 7) with 128. change (2 ^ 1) with 2.
  apply wpg_bind, wpg_get; [intros _|left; lia]. destruct (_ =? 0); [|apply K].
  apply wpg_bind, wpg_get; [intros _|left; lia]. apply K.
Qed.

Lemma dlt_rows_wpg pos tempo n i calls (Q : Z -> Prop) : 0 <= pos < 128 -> 0 <= tempo -> 0 <= i -> i + Z.of_nat n <= 64 ->
  (forall r, calls <= r <= calls + Z.of_nat n * tempo -> Q r) -> wpg B F (dlt_rows module pos tempo n i calls) Q.
Proof.
  intros Hp Ht. revert i calls. induction n as [|n IH]; intros i calls Hi Hn HQ; cbn [dlt_rows]; [apply HQ; lia|].
  apply wpg_bind, is_dlt_pattern_end_wpg; try lia. intros [|]; [apply HQ; nia|]. apply IH; [lia|lia|]. intros r Hr. apply HQ. nia.
Qed.

Definition dlt_inv (s : list Z * Z * Z * Z) : Prop :=
  let '(seen, pos, tempo, calls) := s in
  len seen = 128 /\ 0 <= pos /\ 0 <= tempo <= 255 /\ 0 <= calls <= 16320 * (128 - zeros seen).

Lemma parse_dlt_song_wpg fuel b s D L P seen pos (Q : info * list Z -> Prop) : s < 32 -> 0 <= i_fastplay b <= 1000 ->
  128 <= Z.of_nat fuel -> len seen = 128 -> 0 <= pos <= 128 ->
  songs_ok s D L P ->
  (forall s' D' L' P' seen', songs_ok s' D' L' P' -> len seen' = 128 -> Q (prog b s' D' L' P', seen')) ->
  wpg B F (parse_dlt_song fuel module (prog b s D L P) seen pos) Q.
Proof.
  intros Hs Hfp Hfuel Hseen Hpos Hok HQ. unfold parse_dlt_song. apply wpg_bind.
  pose (R := fun r : list Z * Z => len (fst r) = 128 /\ 0 <= snd r <= 128).
  eapply wpg_mono; [apply (loop_wpg B F (dlt_skip_step module) R (fun x => 128 - snd x) R)|].
  - intros x [_ H]. lia.
  - intros [seen0 pos0] H. pose proof H as [H1 H2]. cbn [fst snd] in *. unfold dlt_skip_step.
    destruct (Z.ltb_spec pos0 128); [|exact H].
    apply wpg_bind, wpg_get; [intros _|left; lia]. destruct (_ =? 0); [|exact H].
    apply wpg_bind, is_dlt_track_empty_wpg; [lia|]. intros [|]; [|exact H].
    apply wpg_bind, wpg_set_nth; [lia|]. unfold R. cbn [wpg continue_ fst snd]. rewrite len_upd. split; [|right]; lia.
  - split; assumption.
  - right. cbn [snd]. lia.
  - intros [seen0 pos0] [H1 H2]. cbn [fst snd] in *. apply wpg_bind, wpg_set_pos; [assumption|assumption|]. intros P' HP'.
    apply wpg_bind. pose proof (zeros_range seen0).
    eapply wpg_mono; [apply (loop_wpg B F (dlt_song_step module) dlt_inv (fun s => zeros (fst (fst (fst s))))) with
      (P := fun r : list Z * bool * Z => len (fst (fst r)) = 128 /\ 0 <= snd r <= 2088960)|].
    + intros s0 _. apply zeros_range.
    + intros [[[seen1 pos1] tempo] calls] (I1 & I2 & I3 & I4). cbn [fst snd]. unfold dlt_song_step.
      pose proof (zeros_range seen1) as Z1.
      assert (Hcl : 0 <= calls <= 2088960) by lia.
      destruct (Z.ltb_spec pos1 128) as [C|C]; [|split; assumption].
      apply wpg_bind, wpg_get; [intros _|left; lia]. destruct (Z.eqb_spec (at_ seen1 pos1) 0) as [E|E]; cbn [negb]; [|split; assumption].
      apply wpg_bind, wpg_set_nth; [lia|].
      assert (Z2 : zeros (upd seen1 (Z.to_nat pos1) 1) = zeros seen1 - 1) by (apply zeros_upd; [unfold len in I1; lia|exact E|lia]).
      set (seen2 := upd seen1 (Z.to_nat pos1) 1) in *. assert (I1' : len seen2 = 128) by (unfold seen2; now rewrite len_upd). clearbody seen2.
      apply wpg_bind, wpg_get; [intros _|left; lia]. apply wpg_bind.
      pose proof (at_nonneg module (8326 + pos1) Hb) as R2.
      assert (K : forall e : bool, wpg B F (if e then leave (seen2, false, calls)
        else if at_ module (8198 + pos1) =? 65 then pos <- get module (8326 + pos1);; continue_ (seen2, pos, tempo, calls)
        else if at_ module (8198 + pos1) =? 66 then tempo <- get module (8326 + pos1);; continue_ (seen2, pos1 + 1, tempo, calls)
        else calls <- dlt_rows module pos1 tempo 64 0 calls;; continue_ (seen2, pos1 + 1, tempo, calls))
        (fun x => match x with inl s' => dlt_inv s' /\ (F \/ zeros (fst (fst (fst s'))) < zeros seen1) | inr r => len (fst (fst r)) = 128 /\ 0 <= snd r <= 2088960 end)).
      { intros [|]; [split; assumption|].
        destruct (_ =? 65); [apply wpg_bind, wpg_get; [intros _|left; lia]; cbn [wpg continue_ dlt_inv fst]; repeat split; try lia|].
        destruct (_ =? 66); [apply wpg_bind, wpg_get; [intros _|left; lia]; cbn [wpg continue_ dlt_inv fst]; repeat split; try lia|].
        apply wpg_bind, dlt_rows_wpg; try lia. intros r Hr. cbn [wpg continue_ dlt_inv fst]. repeat split; try lia. }
      destruct (_ =? 64); [apply (K true)|]. apply is_dlt_track_empty_wpg; [lia|]. intros e. apply (K e).
    + cbn [dlt_inv]. repeat split; try lia.
    + cbn [fst]. right. lia.
    + intros [[seen2 lp] calls] [H3 H4]. cbn [fst snd] in *.
      assert (Hok2 : songs_ok s D L P') by eauto using songs_ok_pos.
      destruct (Z.ltb_spec 0 calls); [|apply HQ; assumption].
      apply wpg_bind, wpg_set_loop; [assumption|assumption|]. intros L' HL'.
      apply wpg_bind, wpg_add_song; try lia; [eauto using songs_ok_loops| |].
      { left. change int_max with 2147483647. nia. }
      intros D' HD'. cbn [wpg]. apply HQ; assumption.
Qed.

Lemma dlt_songs_wpg fuel b n pos s D L P seen (Q : info -> Prop) : 0 <= i_fastplay b <= 1000 ->
  128 <= Z.of_nat fuel -> len seen = 128 -> 0 <= pos -> pos + Z.of_nat n <= 128 -> songs_ok s D L P ->
  (forall s' D' L' P', songs_ok s' D' L' P' -> Q (prog b s' D' L' P')) ->
  wpg B F (dlt_songs fuel module (prog b s D L P) seen n pos) Q.
Proof.
  intros Hfp Hfuel Hseen Hp Hn Hok HQ. revert pos s D L P seen Hseen Hp Hn Hok.
  induction n as [|n IH]; intros pos s D L P seen Hseen Hp Hn Hok; cbn [dlt_songs]; [now apply HQ|].
  change (i_songs (prog b s D L P)) with s. destruct (Z.ltb_spec s 32); [|now apply HQ].
  apply wpg_bind, wpg_get; [intros _|left; lia]. apply wpg_bind. destruct (_ =? 0).
  - apply parse_dlt_song_wpg; try assumption; [lia|]. intros. apply IH; (assumption || lia).
  - cbn [wpg]. apply IH; (assumption || lia).
Qed.
End Dlt.

Lemma parse_dlt_wpg (B : ub_reason -> Prop) (F : Prop) fuel inf module (Q : info -> Prop) :
  bytes module -> 0 <= i_fastplay inf <= 1000 -> 128 <= Z.of_nat fuel ->
  i_durations inf = repeat (-1) 32 -> i_loops inf = repeat false 32 -> len (i_songPos inf) = 32 ->
  (8192 = word_at module 2 /\ 11270 <= len module -> forall s D L P, 1 <= s -> songs_ok s D L P -> Q (prog (set_music 8192 (set_type DLT inf)) s D L P)) ->
  wpg B F (parse_dlt fuel inf module) Q.
Proof.
  intros Hb Hfp Hfuel HD HL HP HQ. unfold parse_dlt.
  destruct (Z.eqb_spec (len module) 11270) as [C|C]; destruct (Z.eqb_spec (len module) 11271) as [C'|C']; cbn [negb andb]; try lia; [| |exact I].
  all: assert (Hl : 11270 <= len module) by lia.
  all: apply wpg_bind, parse_module_wpg; [assumption|lia|right; discriminate|]; intros m Hm Em _.
  all: change (i_music (set_music m (set_type DLT inf))) with m; destruct (Z.eqb_spec m 8192) as [->|]; cbn [negb]; [|exact I].
  all: apply wpg_bind.
  all: change (set_songs 0 (set_music 8192 (set_type DLT inf))) with
    (prog (set_music 8192 (set_type DLT inf)) 0 (i_durations inf) (i_loops inf) (i_songPos inf)).
  all: assert (Hok : songs_ok 0 (i_durations inf) (i_loops inf) (i_songPos inf)) by (rewrite HD, HL; now apply songs_ok_init).
  all: apply dlt_songs_wpg; try assumption; try reflexivity; try lia.
  all: intros s' D' L' P' Hok'; change (i_songs (prog _ s' D' L' P')) with s'.
  all: destruct (Z.eqb_spec s' 0); [exact I|]; apply HQ; [split; [exact Em|lia]| |assumption]; destruct Hok'; lia.
Qed.
