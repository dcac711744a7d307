(* Native parsers, part 3: FC, which reads and writes inside its arrays and terminates. *)
From Coq Require Import String.
From Verif Require Import Base BaseFacts InfoModel InfoSpec Loop NativeModel NativeSpec InfoProofs SapProofs NativeProofs NativeProofs2.

Section Fc.
Variable B : ub_reason -> Prop.
Variable F : Prop.
Hypothesis Bovf : B UbOverflow.
Variable module : list Z.
Hypothesis Hb : bytes module.
Hypothesis Hl : 899 <= len module.
Variable fuel : nat.
Hypothesis Hfuel : 60000 * (len module + 1) <= Z.of_nat fuel.

(* a 255 at or after an offset *)
Definition ff_from (o : Z) : Prop := exists e, o <= e < len module /\ at_ module e = 255.

Lemma after_ff_wpg o (Q : Z -> Prop) : 0 <= o -> (forall o', o < o' <= len module -> ff_from o -> Q o') -> wpg B F (after_ff fuel module o) Q.
Proof.
  intros Ho HQ. unfold after_ff.
  apply (loop_wpg B F (after_ff_step module) (fun x => o <= x) (fun x => Z.max 0 (len module - x)) Q).
  - intros. lia.
  - intros x Hx. unfold after_ff_step. destruct (Z.ltb_spec x (len module)); [|exact I].
    apply wpg_bind, wpg_get; [intros _|left; lia]. destruct (Z.eqb_spec (at_ module x) 255) as [E|E]; cbn [wpg leave continue_].
    + apply HQ; [lia|]. exists x. split; [lia|assumption].
    + split; [lia|right; lia].
  - lia.
  - right. lia.
Qed.

Lemma fc_patterns_wpg n o (Q : list Z * Z -> Prop) : 0 <= o -> (forall l e, length l = n -> 0 <= e -> Forall (fun p => 0 <= p /\ ff_from p) l -> Q (l, e)) ->
  wpg B F (fc_patterns fuel module n o) Q.
Proof.
  revert o Q. induction n as [|n IH]; intros o Q Ho HQ; cbn [fc_patterns]; [now apply HQ|].
  apply wpg_bind, after_ff_wpg; [assumption|]. intros o' Ho' Hff. apply wpg_bind, IH; [lia|]. intros l e H1 H2 H3. cbn [wpg]. apply HQ.
  - cbn [length]. now rewrite H1.
  - assumption.
  - constructor; [split; assumption|assumption].
Qed.

Variable po : list Z.
Hypothesis Hpo : length po = 64%nat.
Hypothesis Hpo2 : Forall (fun p => 0 <= p /\ ff_from p) po.

Lemma po_at i : 0 <= i < 64 -> 0 <= at_ po i /\ ff_from (at_ po i).
Proof. intros Hi. unfold at_. apply (proj1 (Forall_forall _ po) Hpo2), nth_In. lia. Qed.

Variables (b : info) (s : Z) (D P : list Z).
Hypothesis Hs : s < 32.

Definition tp (f : fc) n := at_ (f_track f) n.
Definition pp (f : fc) n := at_ (f_pat f) n.
Definition dl (f : fc) n := at_ (f_delay f) n.
Definition nt (f : fc) n := at_ (f_note f) n.
Definition cmd (f : fc) n := at_ module (3 + n * 256 + tp f n).
Definition kk (f : fc) n := (258 - tp f n) * (len module + 1) - pp f n.
Definition vm (f : fc) n := kk f n * 64 + Z.max (dl f n) (-1) + 1.

Definition voice_ok (pos : Z) (f : fc) (n : Z) : Prop :=
  pos <= tp f n <= 257 /\ 0 <= pp f n <= len module /\ 0 <= nt f n <= 31 /\ dl f n <= 31
  /\ (pp f n = 0 \/ tp f n < 256 /\ cmd f n < 64 /\ ff_from (at_ po (cmd f n) + pp f n)).

Definition fi (pos : Z) (f : fc) : Prop :=
  (exists L, f_inf f = prog b s D L P /\ songs_ok s D L P)
  /\ len (f_track f) = 3 /\ len (f_delay f) = 3 /\ len (f_note f) = 3 /\ len (f_pat f) = 3
  /\ forall n, 0 <= n < 3 -> voice_ok pos f n.

(* the voices other than n are the same *)
Definition others (n : Z) (f f' : fc) : Prop := forall m, 0 <= m -> m <> n -> tp f' m = tp f m /\ pp f' m = pp f m /\ dl f' m = dl f m /\ nt f' m = nt f m.

Lemma others_refl n f : others n f f.
Proof. intros m _ _. auto. Qed.

Lemma others_trans n f g h : others n f g -> others n g h -> others n f h.
Proof. intros H1 H2 m Hm Hn. destruct (H1 m Hm Hn) as (? & ? & ? & ?), (H2 m Hm Hn) as (? & ? & ? & ?). repeat split; congruence. Qed.

Lemma others_vm n f g m : others n f g -> 0 <= m -> m <> n -> vm g m = vm f m.
Proof. intros H Hm Hn. destruct (H m Hm Hn) as (H1 & H2 & H3 & H4). unfold vm, kk. now rewrite H1, H2, H3. Qed.

Lemma others_cmd n f g m : others n f g -> 0 <= m -> m <> n -> cmd g m = cmd f m.
Proof. intros H Hm Hn. destruct (H m Hm Hn) as (H1 & _). unfold cmd. now rewrite H1. Qed.

Lemma others_ok n f g m pos : others n f g -> 0 <= m -> m <> n -> voice_ok pos f m -> voice_ok pos g m.
Proof.
  intros H Hm Hn V. pose proof (others_cmd _ _ _ _ H Hm Hn) as Ec. destruct (H m Hm Hn) as (H1 & H2 & H3 & H4).
  unfold voice_ok in *. now rewrite H1, H2, H3, H4, Ec.
Qed.

(* changing one voice *)
Lemma fi_change pos f f' n : 0 <= n < 3 -> fi pos f -> (exists L, f_inf f' = prog b s D L P /\ songs_ok s D L P) ->
  len (f_track f') = 3 -> len (f_delay f') = 3 -> len (f_note f') = 3 -> len (f_pat f') = 3 ->
  others n f f' -> voice_ok pos f' n -> fi pos f'.
Proof.
  intros Hn (_ & _ & _ & _ & _ & Hv) HL H1 H2 H3 H4 Ho Hv'. repeat split; try assumption; destruct (Z.eq_dec n0 n) as [->|E]; try apply Hv';
  apply (others_ok n f f' n0 pos Ho); auto; lia.
Qed.

Ltac proj_simpl := unfold tp, pp, dl, nt; cbn [f_inf f_track f_delay f_note f_pat].

Ltac others_tac := let m := fresh "m" in let Hm := fresh in let E := fresh in
  match goal with |- others _ _ ?x => subst x end; intros m Hm E; proj_simpl; rewrite ?at_upd by (rewrite ?len_upd; lia);
  match goal with |- context [m =? ?n] => destruct (Z.eqb_spec m n) end; [contradiction|]; auto.

Lemma shiftl8 n : Z.shiftl n 8 = n * 256.
Proof. now rewrite Z.shiftl_mul_pow2. Qed.

Lemma fc_track_command_wpg f n (Q : Z -> Prop) : 0 <= n < 3 -> len (f_track f) = 3 -> 0 <= tp f n <= 257 ->
  Q (cmd f n) -> wpg B F (fc_track_command module (f_track f) n) Q.
Proof.
  intros Hn Hlen Ht HQ. unfold fc_track_command. apply wpg_bind, wpg_get; [intros _|left; lia].
  rewrite shiftl8. unfold tp in Ht. apply wpg_get; [intros _; exact HQ|left; lia].
Qed.

Lemma fc_voice_loop pos f n (Q : fc -> Prop) : 0 <= pos -> 0 <= n < 3 -> fi pos f -> tp f n < 256 -> cmd f n <> 254 -> cmd f n <> 255 -> dl f n <= -1 ->
  (forall f', fi pos f' -> others n f f' -> vm f' n < kk f n * 64 -> Q f') ->
  wpg B F (loop fuel (fc_voice_step module po n) f) Q.
Proof.
  intros Hp Hn Hf T1 T2 T3 Hd HQ.
  pose (J := fun g => fi pos g /\ others n f g /\ dl g n <= 0 /\ (g = f \/ kk g n < kk f n)).
  assert (Hk : forall g, fi pos g -> 1 <= kk g n <= 258 * (len module + 1)).
  { intros g (_ & _ & _ & _ & _ & Hv). destruct (Hv n Hn) as (V1 & V2 & _). unfold kk. nia. }
  apply (loop_wpg B F (fc_voice_step module po n) J (fun g => kk g n) Q).
  - intros g (Hg & _). apply Hk in Hg. lia.
  - intros g (Hg & Ho & Hdg & Hst). pose proof Hg as ((L & EL & HL) & L1 & L2 & L3 & L4 & Hv).
    pose proof (Hv n Hn) as (V1 & V2 & V3 & V4 & V5).
    assert (Hleave : (g = f -> False) -> Q g).
    { intros Hne. apply HQ; [assumption|assumption|]. destruct Hst as [->|Hst]; [destruct Hne; reflexivity|]. unfold vm. lia. }
    unfold fc_voice_step. apply wpg_bind, wpg_get; [intros _|left; lia]. fold (tp g n).
    destruct (Z.ltb_spec (tp g n) 256) as [C|C]; [|apply Hleave; intros ->; lia].
    apply wpg_bind, fc_track_command_wpg; [lia|assumption|lia|].
    assert (Ck : kk g n <= kk f n) by (destruct Hst as [->|?]; lia).
    pose proof (at_nonneg module (3 + n * 256 + tp g n) Hb) as Rc. fold (cmd g n) in Rc.
    destruct (Z.ltb_spec (cmd g n) 64) as [C1|C1].
    + destruct (po_at (cmd g n) ltac:(lia)) as [P1 P2].
      assert (P3 : ff_from (at_ po (cmd g n) + pp g n)).
      { destruct V5 as [->|(_ & _ & ?)]; [now rewrite Z.add_0_r|assumption]. }
      apply wpg_bind, wpg_get; [intros _|left; unfold len; lia]. apply wpg_bind, wpg_get; [intros _|left; lia]. fold (pp g n).
      destruct P3 as (e & He & Ee).
      apply wpg_bind, wpg_get; [intros _|left; lia]. set (pc := at_ module (at_ po (cmd g n) + pp g n)) in *.
      apply wpg_bind, wpg_set_nth; [lia|].
      assert (Pe : pc <> 255 -> ff_from (at_ po (cmd g n) + (pp g n + 1))).
      { intros Hpc. exists e. split; [|assumption]. destruct (Z.eq_dec e (at_ po (cmd g n) + pp g n)) as [->|]; [contradiction|lia]. }
      assert (Pl : pc <> 255 -> pp g n + 1 <= len module).
      { intros Hpc. destruct (Pe Hpc) as (e' & He' & _). lia. }
      destruct (Z.ltb_spec pc 64) as [D1|D1].
      { apply wpg_bind, wpg_get; [intros _|left; lia]. fold (nt g n). apply wpg_bind, wpg_set_nth; [lia|]. cbn [wpg leave].
        match goal with |- Q ?x => set (g' := x) end.
        assert (Ho' : others n g g') by others_tac.
        assert (E1 : tp g' n = tp g n) by reflexivity.
        assert (E2 : pp g' n = pp g n + 1) by (unfold g'; proj_simpl; rewrite at_upd, Z.eqb_refl by lia; reflexivity).
        assert (E3 : dl g' n = nt g n) by (unfold g'; proj_simpl; rewrite at_upd, Z.eqb_refl by lia; reflexivity).
        assert (E4 : nt g' n = nt g n) by reflexivity.
        assert (E5 : cmd g' n = cmd g n) by reflexivity.
        apply HQ.
        - apply (fi_change pos g g' n); try assumption; [exists L; now split|cbn [g' f_delay]; now rewrite len_upd|cbn [g' f_pat]; now rewrite len_upd|].
          unfold voice_ok. rewrite E1, E2, E3, E4, E5. repeat split; try lia. right. repeat split; try assumption. apply Pe. lia.
        - eapply others_trans; eassumption.
        - unfold vm. unfold kk in *. rewrite E1, E2, E3. lia. }
      destruct (Z.ltb_spec pc 96) as [D2|D2].
      { apply wpg_bind, wpg_set_nth; [lia|]. cbn [wpg continue_].
        match goal with |- J ?x /\ _ => set (g' := x) end.
        assert (Ho' : others n g g') by others_tac.
        assert (E1 : tp g' n = tp g n) by reflexivity.
        assert (E2 : pp g' n = pp g n + 1) by (unfold g'; proj_simpl; rewrite at_upd, Z.eqb_refl by lia; reflexivity).
        assert (E3 : dl g' n = dl g n) by reflexivity.
        assert (E4 : nt g' n = pc - 64) by (unfold g'; proj_simpl; rewrite at_upd, Z.eqb_refl by lia; reflexivity).
        assert (E5 : cmd g' n = cmd g n) by reflexivity.
        assert (Ek : kk g' n = kk g n - 1) by (unfold kk; rewrite E1, E2; lia).
        split; [|right; lia]. split; [|split; [eapply others_trans; eassumption|split; [lia|right; lia]]].
        apply (fi_change pos g g' n); try assumption; [exists L; now split|cbn [g' f_note]; now rewrite len_upd|cbn [g' f_pat]; now rewrite len_upd|].
        unfold voice_ok. rewrite E1, E2, E3, E4, E5. repeat split; try lia. right. repeat split; try assumption. apply Pe. lia. }
      destruct (Z.eqb_spec pc 255) as [D3|D3].
      { apply wpg_bind, wpg_set_nth; [lia|]. apply wpg_bind, wpg_set_nth; [lia|]. apply wpg_bind, wpg_set_nth; [rewrite len_upd; lia|].
        apply wpg_bind, wpg_set_nth; [lia|]. cbn [wpg continue_].
        match goal with |- J ?x /\ _ => set (g' := x) end.
        assert (Ho' : others n g g').
        { intros m Hm E. unfold g'. proj_simpl. rewrite !at_upd by (rewrite ?len_upd; lia). destruct (Z.eqb_spec m n); [contradiction|]. auto. }
        assert (E1 : tp g' n = tp g n + 1) by (unfold g'; proj_simpl; rewrite at_upd, Z.eqb_refl by lia; reflexivity).
        assert (E2 : pp g' n = 0) by (unfold g'; proj_simpl; rewrite at_upd, Z.eqb_refl by (rewrite ?len_upd; lia); reflexivity).
        assert (E3 : dl g' n = 0) by (unfold g'; proj_simpl; rewrite at_upd, Z.eqb_refl by lia; reflexivity).
        assert (E4 : nt g' n = 0) by (unfold g'; proj_simpl; rewrite at_upd, Z.eqb_refl by lia; reflexivity).
        assert (Ek : kk g' n < kk g n) by (unfold kk; rewrite E1, E2; nia).
        split; [|right; lia]. split; [|split; [eapply others_trans; eassumption|split; [lia|right; lia]]].
        apply (fi_change pos g g' n); try assumption; try (cbn [g' f_note f_pat f_track f_delay]; rewrite ?len_upd; assumption); [exists L; now split|].
        unfold voice_ok. rewrite E1, E2, E3, E4. repeat split; try lia. }
      cbn [wpg continue_].
      match goal with |- J ?x /\ _ => set (g' := x) end.
      assert (Ho' : others n g g') by others_tac.
      assert (E1 : tp g' n = tp g n) by reflexivity.
      assert (E2 : pp g' n = pp g n + 1) by (unfold g'; proj_simpl; rewrite at_upd, Z.eqb_refl by lia; reflexivity).
      assert (E3 : dl g' n = dl g n) by reflexivity.
      assert (E4 : nt g' n = nt g n) by reflexivity.
      assert (E5 : cmd g' n = cmd g n) by reflexivity.
      assert (Ek : kk g' n = kk g n - 1) by (unfold kk; rewrite E1, E2; lia).
      split; [|right; lia]. split; [|split; [eapply others_trans; eassumption|split; [lia|right; lia]]].
      apply (fi_change pos g g' n); try assumption; [exists L; now split|cbn [g' f_pat]; now rewrite len_upd|].
      unfold voice_ok. rewrite E1, E2, E3, E4, E5. repeat split; try lia. right. repeat split; try assumption. now apply Pe.
    + assert (Hpp : pp g n = 0) by lia.
      assert (Hmove : forall v, tp g n < v <= 257 -> wpg B F (track <- set_nth (f_track g) n v ;; continue_ (mkFc (f_inf g) track (f_delay g) (f_note g) (f_pat g)))
         (fun x => match x with inl s' => J s' /\ (F \/ kk s' n < kk g n) | inr r => Q r end)).
      { intros v Hv'. apply wpg_bind, wpg_set_nth; [lia|]. cbn [wpg continue_].
        match goal with |- J ?x /\ _ => set (g' := x) end.
        assert (Ho' : others n g g') by others_tac.
        assert (E1 : tp g' n = v) by (unfold g'; proj_simpl; rewrite at_upd, Z.eqb_refl by lia; reflexivity).
        assert (E2 : pp g' n = pp g n) by reflexivity.
        assert (E3 : dl g' n = dl g n) by reflexivity.
        assert (E4 : nt g' n = nt g n) by reflexivity.
        assert (Ek : kk g' n < kk g n) by (unfold kk; rewrite E1, E2; nia).
        split; [|right; lia]. split; [|split; [eapply others_trans; eassumption|split; [lia|right; lia]]].
        apply (fi_change pos g g' n); try assumption; [exists L; now split|cbn [g' f_track]; now rewrite len_upd|].
        unfold voice_ok. rewrite E1, E2, E3, E4, Hpp. repeat split; try lia. }
      destruct (Z.eqb_spec (cmd g n) 64); [apply Hmove; lia|].
      destruct (Z.eqb_spec (cmd g n) 254) as [D1|D1].
      { rewrite EL. apply wpg_bind, wpg_set_loop; [assumption|assumption|]. intros L' HL'. cbn [wpg leave].
        match goal with |- Q ?x => set (g' := x) end.
        assert (Hst' : kk g n < kk f n) by (destruct Hst as [->|?]; [contradiction|assumption]).
        apply HQ.
        - apply (fi_change pos g g' n); try assumption; [exists L'; split; [reflexivity|eauto using songs_ok_loops]|intros m _ _; auto|exact (Hv n Hn)].
        - intros m Hm E. destruct (Ho m Hm E) as (? & ? & ? & ?). auto.
        - change (vm g' n) with (vm g n). unfold vm. lia. }
      destruct (Z.eqb_spec (cmd g n) 255) as [D2|D2]; [apply Hleave; intros ->; contradiction|].
      apply Hmove; lia.
  - split; [assumption|]. split; [apply others_refl|]. split; [lia|now left].
  - right. pose proof (Hk f Hf). lia.
Qed.

Lemma fc_voices_wpg pos k n f (Q : fc -> Prop) : 0 <= pos -> 0 <= n -> n + Z.of_nat k = 3 -> fi pos f ->
  (forall m, n <= m < 3 -> tp f m < 256 /\ cmd f m <> 254) ->
  (forall f', fi pos f' -> (forall m, 0 <= m < 3 -> vm f' m <= vm f m) -> (forall m, n <= m < 3 -> cmd f m <> 255 -> vm f' m < vm f m) -> Q f') ->
  wpg B F (fc_voices fuel module po k n f) Q.
Proof.
  intros Hp. revert n f. induction k as [|k IH]; intros n f Hn Hk Hf Hend HQ; cbn [fc_voices].
  { apply HQ; [assumption|intros; lia|intros; lia]. }
  pose proof Hf as ((L & EL & HL) & L1 & L2 & L3 & L4 & Hv). pose proof (Hv n ltac:(lia)) as (V1 & V2 & V3 & V4 & V5).
  destruct (Hend n ltac:(lia)) as [N1 N2].
  apply wpg_bind, fc_track_command_wpg; [lia|assumption|lia|]. apply wpg_bind.
  assert (K : forall g, fi pos g -> others n f g -> vm g n <= vm f n -> (cmd f n <> 255 -> vm g n < vm f n) -> wpg B F (fc_voices fuel module po k (n + 1) g) Q).
  { intros g Hg Ho Hle Hlt. apply IH; try assumption; try lia.
    - intros m Hm. rewrite (others_cmd n f g m Ho) by lia. destruct (Ho m ltac:(lia) ltac:(lia)) as (-> & _). apply Hend. lia.
    - intros f' F1 F2 F3. apply HQ; [assumption| |].
      + intros m Hm. specialize (F2 m Hm). destruct (Z.eq_dec m n) as [->|E]; [lia|]. rewrite (others_vm n f g m Ho) in F2 by lia. assumption.
      + intros m Hm Hc. destruct (Z.eq_dec m n) as [->|E].
        * specialize (F2 n ltac:(lia)). specialize (Hlt Hc). lia.
        * rewrite <- (others_vm n f g m Ho) by lia. apply F3; [lia|]. rewrite (others_cmd n f g m Ho) by lia. assumption. }
  destruct (Z.eqb_spec (cmd f n) 255) as [C|C].
  { cbn [wpg]. apply K; [assumption|apply others_refl|lia|contradiction]. }
  apply wpg_bind, wpg_get; [intros _|left; lia]. fold (dl f n). apply wpg_bind, wpg_set_nth; [lia|]. cbv zeta.
  match goal with |- context [loop fuel _ ?x] => set (g := x) end.
  assert (Ho : others n f g) by others_tac.
  assert (E1 : tp g n = tp f n) by reflexivity.
  assert (E2 : pp g n = pp f n) by reflexivity.
  assert (E3 : dl g n = dl f n - 1) by (unfold g; proj_simpl; rewrite at_upd, Z.eqb_refl by lia; reflexivity).
  assert (E4 : nt g n = nt f n) by reflexivity.
  assert (E5 : cmd g n = cmd f n) by reflexivity.
  assert (Ek : kk g n = kk f n) by reflexivity.
  assert (Hg : fi pos g).
  { apply (fi_change pos f g n); try assumption; [lia|exists L; now split|cbn [g f_delay]; now rewrite len_upd|].
    unfold voice_ok. rewrite E1, E2, E3, E4, E5. repeat split; try lia. exact V5. }
  destruct (Z.ltb_spec 0 (dl f n)) as [C1|C1].
  { cbn [wpg]. apply K; try assumption; unfold vm; rewrite Ek, E3; lia. }
  apply (fc_voice_loop pos g n); try assumption; try lia. intros h H1 H2 H3.
  assert (H4 : vm h n < vm f n) by (unfold vm at 2; rewrite <- Ek; lia).
  apply K; [assumption|eapply others_trans; eassumption|lia|intros; lia].
Qed.

Lemma song_end_wpg pos f k n al (Q : bool -> Prop) : 0 <= pos -> 0 <= n -> n + Z.of_nat k = 3 -> fi pos f ->
  Q true -> ((forall m, n <= m < 3 -> tp f m < 256 /\ cmd f m <> 254) -> (al = false \/ exists m, n <= m < 3 /\ cmd f m <> 255) -> Q false) ->
  wpg B F (is_fc_song_end module (f_track f) k n al) Q.
Proof.
  intros Hp. revert n al. induction k as [|k IH]; intros n al Hn Hk Hf Q1 Q2; cbn [is_fc_song_end].
  { destruct al; [exact Q1|]. apply Q2; [intros; lia|now left]. }
  pose proof Hf as (_ & L1 & L2 & L3 & L4 & Hv). pose proof (Hv n ltac:(lia)) as (V1 & _).
  apply wpg_bind, wpg_get; [intros _|left; lia]. fold (tp f n). destruct (Z.leb_spec 256 (tp f n)); [exact Q1|].
  apply wpg_bind, fc_track_command_wpg; [lia|assumption|lia|].
  destruct (Z.eqb_spec (cmd f n) 254); [exact Q1|]. destruct (Z.eqb_spec (cmd f n) 255).
  - apply IH; try assumption; try lia. intros H1 H2. apply Q2.
    + intros m Hm. destruct (Z.eq_dec m n) as [->|]; [auto|apply H1; lia].
    + destruct H2 as [H2|(m & Hm & H2)]; [now left|right]. exists m. split; [lia|assumption].
  - apply IH; try assumption; try lia. intros H1 H2. apply Q2.
    + intros m Hm. destruct (Z.eq_dec m n) as [->|]; [auto|apply H1; lia].
    + right. exists n. split; [lia|assumption].
Qed.

Definition total (f : fc) : Z := vm f 0 + vm f 1 + vm f 2.

Lemma vm_range pos f m : 0 <= pos -> fi pos f -> 0 <= m < 3 -> 0 <= vm f m <= 258 * (len module + 1) * 64 + 32.
Proof.
  intros Hp (_ & _ & _ & _ & _ & Hv) Hm. destruct (Hv m Hm) as (V1 & V2 & V3 & V4 & _). unfold vm.
  assert (1 <= kk f m <= 258 * (len module + 1)) by (unfold kk; nia). lia.
Qed.

Lemma fc_play_wpg pos f (Q : fc * Z -> Prop) : 0 <= pos -> fi pos f -> (forall f' calls, fi pos f' -> 0 <= calls -> Q (f', calls)) ->
  wpg B F (loop fuel (fc_play_step fuel module po) (f, 0)) Q.
Proof.
  intros Hp Hf HQ.
  apply (loop_wpg B F (fc_play_step fuel module po) (fun x => fi pos (fst x) /\ 0 <= snd x) (fun x => if Z.leb 0 (total (fst x)) then total (fst x) else 0) Q).
  - intros x _. destruct (Z.leb_spec 0 (total (fst x))); lia.
  - intros [g calls] [Hg Hc]. cbn [fst snd] in *. unfold fc_play_step.
    apply wpg_bind, (song_end_wpg pos g 3 0 true); try assumption; try lia; [now apply HQ|]. intros H1 H2.
    destruct H2 as [H2|(m & Hm & H2)]; [discriminate|].
    apply wpg_bind, (fc_voices_wpg pos); try assumption; try lia. intros h Hh F1 F2.
    apply wpg_bind, (song_end_wpg pos h 3 0 true); try assumption; try lia; [now apply HQ|]. intros _ _.
    apply wpg_bind, wpg_get; [intros _|left; lia]. pose proof (at_nonneg module 2 Hb). cbn [wpg continue_ fst snd].
    split; [split; [assumption|lia]|right].
    pose proof (vm_range pos h 0 Hp Hh ltac:(lia)). pose proof (vm_range pos h 1 Hp Hh ltac:(lia)). pose proof (vm_range pos h 2 Hp Hh ltac:(lia)).
    pose proof (vm_range pos g 0 Hp Hg ltac:(lia)). pose proof (vm_range pos g 1 Hp Hg ltac:(lia)). pose proof (vm_range pos g 2 Hp Hg ltac:(lia)).
    pose proof (F1 0 ltac:(lia)). pose proof (F1 1 ltac:(lia)). pose proof (F1 2 ltac:(lia)). pose proof (F2 m Hm H2).
    assert (M : m = 0 \/ m = 1 \/ m = 2) by lia. unfold total.
    destruct (Z.leb_spec 0 (vm h 0 + vm h 1 + vm h 2)), (Z.leb_spec 0 (vm g 0 + vm g 1 + vm g 2)); destruct M as [->|[->| ->]]; lia.
  - cbn [fst snd]. split; [assumption|lia].
  - cbn [fst]. right. unfold total.
    pose proof (vm_range pos f 0 Hp Hf ltac:(lia)). pose proof (vm_range pos f 1 Hp Hf ltac:(lia)). pose proof (vm_range pos f 2 Hp Hf ltac:(lia)).
    destruct (Z.leb_spec 0 (vm f 0 + vm f 1 + vm f 2)); lia.
Qed.
End Fc.

Lemma nth_repeat_in {A} (v d : A) n i : (i < n)%nat -> nth i (repeat v n) d = v.
Proof. revert i. induction n as [|n IH]; intros [|i] H; cbn [repeat nth]; try lia; [reflexivity|]. apply IH. lia. Qed.

Lemma at_repeat v n i : 0 <= i < Z.of_nat n -> at_ (repeat v n) i = v.
Proof. intros H. unfold at_. apply nth_repeat_in. lia. Qed.

Lemma fc_next_pos_wpg B F f k n p (Q : Z -> Prop) : 0 <= n -> n + Z.of_nat k = 3 -> len (f_track f) = 3 -> len (f_pat f) = 3 ->
  (forall r, p <= r -> (n < 3 -> at_ (f_track f) n <= r) -> Q r) -> wpg B F (fc_next_pos f k n p) Q.
Proof.
  revert n p Q. induction k as [|k IH]; intros n p Q Hn Hk H1 H2 HQ; cbn [fc_next_pos]; [apply HQ; intros; lia|].
  apply wpg_bind, wpg_get; [intros _|left; lia]. apply wpg_bind, wpg_get; [intros _|left; lia]. cbv zeta.
  apply IH; try assumption; try lia. intros r R1 _.
  apply HQ; [|intros _]; destruct (0 <? _); repeat match goal with H : context [if ?x <? ?y then _ else _] |- _ => destruct (Z.ltb_spec x y) end; lia.
Qed.

Lemma parse_fc_wpg (B : ub_reason -> Prop) (F : Prop) fuel inf module (Q : info -> Prop) :
  B UbOverflow -> bytes module -> 60000 * (len module + 1) <= Z.of_nat fuel -> 0 <= i_fastplay inf ->
  i_durations inf = repeat (-1) 32 -> i_loops inf = repeat false 32 -> len (i_songPos inf) = 32 ->
  (forall s D L, songs_ok s D L (i_songPos inf) ->
     Q (prog (set_headerLen (-1) (set_music 2560 (set_player 1024 (set_type FC inf)))) s D L (i_songPos inf))) ->
  wpg B F (parse_fc fuel inf module) Q.
Proof.
  intros Bo Hb Hfuel Hfp HD HL HP HQ. unfold parse_fc, validate_fc.
  destruct (Z.ltb_spec (len module) 899) as [C|C]; [exact I|].
  apply wpg_bind, wpg_bind, wpg_get; [intros _|left; lia]. destruct (negb _); [exact I|].
  apply wpg_bind, wpg_get; [intros _|left; lia]. cbn [wpg]. destruct (negb _); [exact I|]. cbv zeta.
  apply wpg_bind, (fc_patterns_wpg B F module C fuel Hfuel); [lia|]. intros po e Hpo He Hpo2.
  apply wpg_bind, (fc_patterns_wpg B F module C fuel Hfuel); [lia|]. intros _ _ _ _ _.
  set (b := set_headerLen (-1) (set_music 2560 (set_player 1024 (set_type FC inf)))) in *.
  change (set_headerLen (-1) (set_songs 0 (set_music 2560 (set_player 1024 (set_type FC inf))))) with
    (prog b 0 (i_durations inf) (i_loops inf) (i_songPos inf)).
  assert (Hok : songs_ok 0 (i_durations inf) (i_loops inf) (i_songPos inf)) by (rewrite HD, HL; now apply songs_ok_init).
  apply (loop_wpg B F (fc_song_step fuel module po)
    (fun x => 0 <= fst x /\ exists s D L, snd x = prog b s D L (i_songPos inf) /\ songs_ok s D L (i_songPos inf)) (fun x => Z.max 0 (257 - fst x)) Q).
  - intros. lia.
  - intros [pos inf'] (Hp & s & D & L & E & Hs). cbn [fst snd] in *. subst inf'. unfold fc_song_step.
    change (i_songs (prog b s D L (i_songPos inf))) with s.
    destruct (Z.ltb_spec pos 256) as [C1|C1]; cbn [andb]; [|now apply HQ].
    destruct (Z.ltb_spec s 32) as [C2|C2]; [|now apply HQ].
    apply wpg_bind, wpg_set_loop; [assumption|assumption|]. intros L' HL'.
    apply wpg_bind, (fc_play_wpg B F module Hb C fuel Hfuel po Hpo Hpo2 b s D (i_songPos inf) C2 pos); [assumption| |].
    { split; [exists L'; split; [reflexivity|eauto using songs_ok_loops]|]. do 4 (split; [reflexivity|]). intros n Hn.
      unfold voice_ok, tp, pp, dl, nt. cbn [f_track f_delay f_note f_pat].
      rewrite (at_repeat pos 3), (at_repeat 0 3) by lia. pose proof (len_nonneg module). repeat split; try lia. }
    intros f calls ((L2 & EL & Hok2) & L3 & L4 & L5 & L6 & Hv) Hc.
    apply wpg_bind, fc_next_pos_wpg; try assumption; try lia. intros r R1 R2.
    destruct (Hv 0 ltac:(lia)) as (V1 & _). unfold tp in V1. specialize (R2 ltac:(lia)).
    apply wpg_bind. rewrite EL. destruct (r + 1 <=? 256).
    + apply wpg_add_song; try assumption; [now right|]. intros D' HD'. cbn [wpg continue_ fst snd].
      split; [split; [lia|eauto 8]|right; lia].
    + cbn [wpg continue_ fst snd]. split; [split; [lia|eauto 8]|right; lia].
  - cbn [fst snd]. split; [lia|eauto 8].
  - cbn [fst]. right. pose proof (len_nonneg module). lia.
Qed.
