(* Silence detection *)
From Verif Require Import Base BaseFacts Loop MemModel InfoModel InfoProofs NativeModel WriterModel PokeyModel MachineModel PlayModel CpuSpec CpuProofs MachineProofs SoundSpec SoundProofs RateProofs SilenceSpec.

(* ---- what the program cannot change, whatever the state ---- *)
Definition kept (s0 s : asap) : Prop := (settings s, m_blocksPlayed s) = (settings s0, m_blocksPlayed s0) /\
  (m_gtiaOrCovoxPlayedThisFrame s = false -> m_gtiaOrCovoxPlayedThisFrame s0 = false /\ m_covox s = m_covox s0 /\ Z.land (m_consol s) 8 = Z.land (m_consol s0) 8).

Section Kept.
Variable s0 : asap.
Notation K := (kept s0).

Lemma K_wr a v s : K s -> W (mem_wr a v s) K.
Proof. intros H. unfold mem_wr. apply W_bind, W_true. intros m. exact H. Qed.
Lemma K_fetch s : K s -> W (fetch s) (fun r => K (snd r)).
Proof. intros H. unfold fetch. apply W_bind, W_true. intros v. exact H. Qed.
Lemma K_pull s : K s -> W (pull s) (fun r => K (snd r)).
Proof. intros H. unfold pull. cbv zeta. apply W_bind, W_true. intros v. exact H. Qed.
Lemma K_push v s : K s -> W (push v s) K.
Proof. intros H. unfold push. cbv zeta. apply W_bind. eapply W_mono; [apply K_wr, H|]. intros s1 H1. exact H1. Qed.
Lemma K_push_pc s : K s -> W (push_pc s) K.
Proof. intros H. unfold push_pc. apply W_bind. eapply W_mono; [apply K_push, H|]. intros s1 H1. apply K_push, H1. Qed.
Lemma K_push_flags v s : K s -> W (push_flags v s) K.
Proof. intros H. unfold push_flags. cbv zeta. apply K_push, H. Qed.
Lemma K_pull_flags s : K s -> W (pull_flags s) K.
Proof. intros H. unfold pull_flags. apply W_bind. eapply W_mono; [apply K_pull, H|]. intros [v s1] H1. exact H1. Qed.
Lemma K_execute_irq v s : K s -> W (execute_irq v s) K.
Proof.
  intros H. unfold execute_irq. apply W_bind. eapply W_mono; [apply K_push_pc, H|]. intros s1 H1. apply W_bind. eapply W_mono; [apply K_push_flags, H1|]. intros s2 H2.
  cbv zeta. apply W_bind, W_true. intros lo. apply W_bind, W_true. intros hi. exact H2.
Qed.
Lemma K_check_irq s : K s -> W (check_irq s) K.
Proof. intros H. unfold check_irq. destruct (_ && _); [|exact H]. apply K_execute_irq. exact H. Qed.

Lemma K_poke_hardware a v s : K s -> W (poke_hardware a v s) K.
Proof.
  intros H. unfold poke_hardware. destruct (Z.shiftr a 8 =? 210).
  { apply W_bind, W_true. intros [t pp]. cbv zeta. destruct (t <? m_nextEventCycle (set_m_pokeys pp s)); exact H. }
  destruct (Z.land a 65295 =? 54282); [exact H|]. destruct (Z.land a 65295 =? 54287); [exact H|].
  destruct (Z.land a 65280 =? i_covox (m_info s)).
  { cbv zeta. destruct (_ =? 0); [exact H|]. apply W_bind, W_true. intros pp. destruct H as [H1 _]. split; [exact H1|]. discriminate. }
  destruct (Z.land a 65311 =? 53279).
  { cbv zeta. destruct (Z.eqb_spec (Z.shiftl (Z.land (m_consol s) 8 - Z.land v 8) 20) 0) as [E|E]; cbn [bind].
    - destruct H as [H1 H2]. split; [exact H1|]. intros F. destruct (H2 F) as (F1 & F2 & F3). split; [exact F1|]. split; [exact F2|]. cbn [m_consol set_m_consol].
      rewrite Z.shiftl_mul_pow2 in E by lia. lia.
    - apply W_bind, W_bind, W_true. intros p. cbv zeta. apply W_bind, W_true. intros p'. destruct H as [H1 _]. split; [exact H1|]. discriminate. }
  apply K_wr, H.
Qed.
Lemma K_poke a v s : K s -> W (cpu_poke a v s) K.
Proof. intros H. unfold cpu_poke. destruct (_ =? _); [now apply K_poke_hardware|]. apply K_wr, H. Qed.
Lemma K_rmw a s : K s -> W (peek_rmw a s) (fun r => K (snd r)).
Proof.
  intros H. unfold peek_rmw. destruct (Z.shiftr a 8 =? 210) eqn:E.
  - cbv zeta. apply W_bind, W_true. intros v. apply W_bind. eapply W_mono; [apply K_poke_hardware; exact H|]. intros s1 H1. exact H1.
  - apply W_bind, W_true. intros v. exact H.
Qed.
Ltac kshifted f := intros H; unfold f; cbv zeta; apply W_bind; (eapply W_mono; [apply K_rmw, H|]); intros [v s1] H1; cbv zeta; apply W_bind; (eapply W_mono; [eapply K_poke; exact H1|]); intros s2 H2; exact H2.
Lemma K_asl a s : K s -> W (arithmetic_shift_left a s) (fun r => K (snd r)). Proof. kshifted arithmetic_shift_left. Qed.
Lemma K_rol a s : K s -> W (rotate_left a s) (fun r => K (snd r)). Proof. kshifted rotate_left. Qed.
Lemma K_lsr a s : K s -> W (logical_shift_right a s) (fun r => K (snd r)). Proof. kshifted logical_shift_right. Qed.
Lemma K_ror a s : K s -> W (rotate_right a s) (fun r => K (snd r)). Proof. kshifted rotate_right. Qed.
Lemma K_dec a s : K s -> W (decrement a s) (fun r => K (snd r)). Proof. kshifted decrement. Qed.
Lemma K_inc a s : K s -> W (increment a s) (fun r => K (snd r)). Proof. kshifted increment. Qed.
Lemma K_shx a v s : K s -> W (shx a v s) K.
Proof.
  intros H. unfold shx. apply W_bind. eapply W_mono; [apply K_fetch, H|]. intros [lo s1] H1. cbv zeta. apply W_bind. eapply W_mono; [apply K_fetch, H1|]. intros [hi s2] H2.
  eapply K_poke; exact H2.
Qed.
Lemma K_adc v s : K s -> K (add_with_carry v s).
Proof. intros H. unfold add_with_carry. cbv zeta. destruct (_ =? 0); [exact H|]. destruct (160 <=? _); exact H. Qed.
Lemma K_sbc v s : K s -> K (subtract_with_carry v s).
Proof. intros H. unfold subtract_with_carry. cbv zeta. destruct (Z.land (m_vdi s) 8 =? 0); exact H. Qed.

Definition K_mode (r : first_result) : Prop := match r with Done s => K s | Operand _ s => K s end.
Lemma K_indexed f c s : K s -> W (abs_indexed f c s) K_mode.
Proof.
  intros H. unfold abs_indexed. apply W_bind. eapply W_mono; [apply K_fetch, H|]. intros [lo s1] H1. cbv zeta. apply W_bind.
  eapply W_mono; [apply K_fetch|]; [|intros [hi s2] H2; exact H2]. destruct (_ && _); exact H1.
Qed.
Lemma K_branch c s : K s -> W (branch_if c s) K_mode.
Proof. intros H. unfold branch_if. destruct c; exact H. Qed.

Ltac kmode_step := match goal with
  | |- W (bind (mem_rd _ _) _) _ => apply W_bind, W_true; intros ?
  | |- W (bind (zp_word _ _) _) _ => apply W_bind, W_true; intros ?
  | H : K ?s |- W (bind (fetch _) _) _ => apply W_bind; eapply W_mono; [apply K_fetch; exact H|]; clear H; intros [? ?] H; cbn [snd] in H
  | H : K ?s |- W (bind (pull _) _) _ => apply W_bind; eapply W_mono; [apply K_pull; exact H|]; clear H; intros [? ?] H; cbn [snd] in H
  | H : K ?s |- W (bind (push _ _) _) _ => apply W_bind; eapply W_mono; [apply K_push; exact H|]; clear H; intros ? H
  | H : K ?s |- W (bind (push_pc _) _) _ => apply W_bind; eapply W_mono; [apply K_push_pc; exact H|]; clear H; intros ? H
  | H : K ?s |- W (bind (push_flags _ _) _) _ => apply W_bind; eapply W_mono; [apply K_push_flags; exact H|]; clear H; intros ? H
  | H : K ?s |- W (bind (pull_flags _) _) _ => apply W_bind; eapply W_mono; [apply K_pull_flags; exact H|]; clear H; intros ? H
  | H : K ?s |- W (bind (execute_irq _ _) _) _ => apply W_bind; eapply W_mono; [apply K_execute_irq; exact H|]; clear H; intros ? H
  | H : K ?s |- W (bind (check_irq _) _) _ => apply W_bind; eapply W_mono; [apply K_check_irq; exact H|]; clear H; intros ? H
  | H : K ?s |- W (bind (shx _ _ _) _) _ => apply W_bind; eapply W_mono; [apply K_shx; exact H|]; clear H; intros ? H
  | H : K ?s |- W (bind (cpu_poke _ _ _) _) _ => apply W_bind; eapply W_mono; [apply K_poke; exact H|]; clear H; intros ? H
  end.
Lemma K_run_mode m s : K s -> W (run_mode m s) K_mode.
Proof.
  intros H. destruct m; cbn [run_mode]; cbv zeta.
  all: try (now apply K_branch).
  all: try (now apply K_indexed).
  all: try exact I.
  all: try (unfold fetch_word; cbn [bind]).
  all: repeat kmode_step.
  all: try exact H.
  all: try (apply W_bind, W_bind; eapply W_mono; [apply K_fetch, H|]; intros [lo s1] H1; apply W_bind; eapply W_mono; [apply K_fetch, H1|]; intros [hi s2] H2; exact H2).
  all: repeat match goal with |- context [if ?c then _ else _] => destruct c end; exact H.
Qed.
Lemma K_branching s : K s -> W (take_branch s) K.
Proof. intros H. unfold take_branch. apply W_bind, W_true. intros v. cbv zeta. destruct (_ =? 0); exact H. Qed.
Lemma K_operation o a s : K s -> W (run_operation o a s) K.
Proof.
  intros H. destruct o; cbn [run_operation]; cbv zeta.
  all: try exact I.
  all: try (apply K_poke; exact H).
  all: try (apply W_bind, W_true; intros v; exact H).
  all: try (apply W_bind, W_true; intros v; apply W_bind, W_true; intros w; exact H).
  all: try (apply W_bind; eapply W_mono; [first [apply K_asl|apply K_rol|apply K_lsr|apply K_ror|apply K_dec|apply K_inc]; exact H|];
    intros [v s1] H1; first [exact H1|apply K_adc, H1|apply K_sbc, H1]).
  all: try (apply K_branching; exact H).
  all: apply W_bind, W_true; intros v; first [apply K_adc; exact H|apply K_sbc; exact H].
Qed.
Lemma K_instruction s : K s -> W (execute s) K.
Proof.
  intros H. unfold execute. apply W_bind. eapply W_mono; [apply K_fetch, H|]. intros [op s1] H1. cbn [snd] in H1. apply W_bind, W_true.
  intros n. apply W_bind. eapply W_mono; [apply K_run_mode; exact H1|]. intros [s2|a s2] H2; [exact H2|]. apply K_operation, H2.
Qed.
Lemma K_player s : K s -> W (call6502_player s) K.
Proof.
  intros H. unfold call6502_player. cbv zeta. destruct (i_type (m_info s)); try exact H.
  - unfold call_player_d. cbv zeta. repeat (kmode_step || (apply W_bind, W_true; intros ?) || match goal with |- context [if ?c then _ else _] => destruct c end); try exact H.
  - match goal with |- context [if ?c then _ else _] => destruct c end; [apply W_bind, W_true; intros v|]; exact H.
Qed.
Lemma K_event s : K s -> W (handle_event s) K.
Proof.
  intros H. unfold handle_event. apply W_bind. apply W_mono with K.
  - destruct (_ <=? _); [|exact H]. cbv zeta.
    set (s1 := set_m_nextScanlineCycle _ _). assert (H1 : K s1) by (subst s1; destruct (_ <? 50); exact H). clearbody s1.
    destruct (_ <=? _); [|exact H1]. apply W_bind. eapply W_mono; [apply K_player, H1|]. intros s2 H2. exact H2.
  - intros s1 H1. cbv zeta. destruct (pokey_check_irq _ _ _) as [n p]. destruct (pokey_check_irq _ _ _) as [n2 p2]. exact H1.
Qed.
Lemma K_poll s : K s -> W (poll_event s) K.
Proof. intros H. unfold poll_event. destruct (_ <=? _); [|exact H]. apply W_bind. eapply W_mono; [apply K_event, H|]. intros s1 H1. apply K_check_irq, H1. Qed.
Lemma K_cpu_frame n s s' : K s -> cpu_do_frame n s = Ok s' -> K s'.
Proof.
  unfold cpu_do_frame. generalize frame_fuel. intros fuel H E. apply (loopZ_keeps _ K K) in E; [exact E| |exact H].
  clear. intros s x H E. unfold cpu_step in E. destruct (_ <? _).
  - apply bind_ok in E. destruct E as (s1 & E1 & E). apply bind_ok in E. destruct E as (s2 & E2 & E). unfold continue_ in E. injection E as <-.
    pose proof (K_poll s H) as P. rewrite E1 in P. pose proof (K_instruction s1 P) as Q. rewrite E2 in Q. exact Q.
  - unfold leave in E. injection E as <-. exact H.
Qed.
End Kept.

Lemma do_frame_keeps s c s' : do_frame s = Ok (c, s') -> settings s' = settings s /\ m_blocksPlayed s' = m_blocksPlayed s /\ c = cycles_per_frame s /\
  (m_gtiaOrCovoxPlayedThisFrame s' = false -> m_covox s' = m_covox s /\ Z.land (m_consol s') 8 = Z.land (m_consol s) 8).
Proof.
  unfold do_frame, do_6502_frame. intros E. cbv zeta in E. apply bind_ok in E. destruct E as (pp & _ & E). apply bind_ok in E. destruct E as (s1 & E1 & E).
  apply bind_ok in E1. destruct E1 as (s2 & E2 & E1). apply bind_ok in E. destruct E as (pp' & _ & E).
  set (u := set_m_gtiaOrCovoxPlayedThisFrame false s) in *.
  apply (K_cpu_frame u) in E2; [|subst u; split; [reflexivity|]; intros _; auto].
  assert (H1 : kept u s1) by (injection E1 as <-; destruct (m_nextPlayerCycle _ =? never); exact E2). clear E1 E2.
  assert (H2 : kept u s') by (injection E as _ <-; exact H1). assert (C : c = frame_cycles (m_info s1)) by congruence.
  destruct H2 as [H2 H3]. injection H2 as J1 J2 J3 J4 J5 J6 J7. subst u. destruct H1 as [H1 _]. injection H1 as I1 _ _ _ _ _ _. cbn in *.
  split; [unfold settings; congruence|]. split; [exact J7|]. split; [rewrite C, I1; reflexivity|]. intros F. destruct (H3 F) as (_ & X). exact X.
Qed.
Lemma do_6502_frame_keeps s0 s s' : kept s0 s -> do_6502_frame s = Ok s' -> kept s0 s'.
Proof.
  unfold do_6502_frame. intros H E. cbv zeta in E. apply bind_ok in E. destruct E as (s2 & E2 & E). apply (K_cpu_frame s0) in E2; [|exact H].
  injection E as <-. destruct (m_nextPlayerCycle _ =? never); exact E2.
Qed.
Lemma init_frames_zero s : init_frames 0 s = Ok (false, s). Proof. reflexivity. Qed.
Lemma init_frames_keeps s0 n s b s' : kept s0 s -> init_frames n s = Ok (b, s') -> kept s0 s'.
Proof.
  revert s. induction n as [|n IH]; intros s H E; [rewrite init_frames_zero in E; injection E as <- <-; exact H|]. rewrite init_frames_S in E.
  apply bind_ok in E. destruct E as (s1 & E1 & E). apply (do_6502_frame_keeps s0) in E1; [|exact H]. destruct (_ =? _); [injection E as <- <-; exact E1|]. exact (IH s1 E1 E).
Qed.
Lemma do_6502_init_keeps s0 pc a x y s b s' : kept s0 s -> do_6502_init pc a x y s = Ok (b, s') -> kept s0 s'.
Proof. unfold do_6502_init. generalize 50%nat. intros n H E. cbv zeta in E. apply (init_frames_keeps s0) in E; [exact E|exact H]. Qed.
Lemma then_init_keeps s0 pc a x y m b s' : (forall b s, m = Ok (b, s) -> kept s0 s) -> then_init pc a x y m = Ok (b, s') -> kept s0 s'.
Proof.
  unfold then_init. intros H E. apply bind_ok in E. destruct E as ([b1 s1] & E1 & E). specialize (H _ _ E1). destruct b1; [|injection E as <- <-; exact H].
  exact (do_6502_init_keeps s0 _ _ _ _ _ _ _ H E).
Qed.
Lemma play_init_keeps s0 song s b s' : kept s0 s -> play_init song s = Ok (b, s') -> kept s0 s'.
Proof.
  intros H E. assert (D : forall pc a x y b u, do_6502_init pc a x y s = Ok (b, u) -> kept s0 u) by (intros; eapply do_6502_init_keeps; eassumption).
  assert (T : forall pc a x y pc' a' x' y' b u, then_init pc a x y (do_6502_init pc' a' x' y' s) = Ok (b, u) -> kept s0 u).
  { intros until u. intros X. eapply then_init_keeps; [|exact X]. intros b1 s1. apply D. }
  unfold play_init in E. cbv zeta in E. destruct (i_type (m_info s)); try (eapply D; exact E); try (eapply T; exact E).
  all: try (injection E as <- <-; exact H).
  all: apply bind_ok in E; destruct E as (pos & E1 & E); try (eapply D; exact E); try (eapply T; exact E).
  all: destruct pos as [b1 s1]; apply T in E1; destruct b1; injection E as <- <-; exact E1.
Qed.
Lemma play_prepare_keeps song duration s t : play_prepare song duration s = Ok t -> m_info t = m_info s /\ m_silenceCycles t = m_silenceCycles s /\
  m_silenceCyclesCounter t = m_silenceCycles s.
Proof. unfold play_prepare. intros E. cbv zeta in E. apply bind_ok in E. destruct E as (pp & _ & E). injection E as <-. repeat split. Qed.
Lemma play_song_counter song duration s b t : api_play_song song duration s = Ok (b, t) -> 0 <= song < i_songs (m_info s) ->
  m_silenceCycles t = m_silenceCycles s /\ m_silenceCyclesCounter t = m_silenceCycles s.
Proof.
  unfold api_play_song. intros E R. replace ((song <? 0) || (i_songs (m_info s) <=? song)) with false in E by lia.
  apply bind_ok in E. destruct E as (s1 & E1 & E). apply play_prepare_keeps in E1. destruct E1 as (_ & I1 & I2). apply bind_ok in E. destruct E as ([b1 s2] & E2 & E).
  apply (play_init_keeps s1) in E2; [|split; [reflexivity|auto]]. destruct E2 as [E2 _]. injection E2 as _ _ _ J1 J2 _ _.
  destruct b1; injection E as <- <-; cbn; split; congruence.
Qed.

(* ---- the frames that were watched ---- *)
Definition quietb (t : asap) : bool := pair_is_silent (m_pokeys t) && negb (m_gtiaOrCovoxPlayedThisFrame t).
Lemma quietb_quiet t : quietb t = true <-> quiet t.
Proof.
  unfold quietb, quiet, pair_is_silent, pokey_is_silent, api_channel_volume. cbn [forallb]. rewrite !Bool.andb_true_iff, !Bool.negb_true_iff, !Z.eqb_eq. split.
  - intros [H F]. split; [|exact F]. intros i R.
    assert (C : i = 0 \/ i = 1 \/ i = 2 \/ i = 3 \/ i = 4 \/ i = 5 \/ i = 6 \/ i = 7) by lia.
    repeat (destruct C as [-> | C]; [tauto|]). subst i. tauto.
  - intros [H F]. split; [|exact F].
    pose proof (H 0 ltac:(lia)) as H0. pose proof (H 1 ltac:(lia)) as H1. pose proof (H 2 ltac:(lia)) as H2. pose proof (H 3 ltac:(lia)) as H3.
    pose proof (H 4 ltac:(lia)) as H4. pose proof (H 5 ltac:(lia)) as H5. pose proof (H 6 ltac:(lia)) as H6. pose proof (H 7 ltac:(lia)) as H7. tauto.
Qed.
Lemma run_true l : run (l ++ [true]) = 1 + run l.
Proof. unfold run. now rewrite rev_app_distr. Qed.
Lemma run_false l : run (l ++ [false]) = 0.
Proof. unfold run. now rewrite rev_app_distr. Qed.
Lemma leading_pos l : 0 <= leading l.
Proof. induction l as [|[|] l IH]; cbn [leading]; lia. Qed.
Lemma run_pos l : 0 <= run l. Proof. apply leading_pos. Qed.

Definition watching (s : asap) (l : list bool) (t : asap) : Prop :=
  watched s l t /\ m_info t = m_info s /\ m_silenceCycles t = m_silenceCycles s /\ m_silenceCyclesCounter t = m_silenceCycles s - cycles_per_frame s * run l /\
  (forall p q, l = p ++ q -> q <> [] -> ~ over s p).
Lemma watched_same s l t u : watched s l t -> same_machine t u -> watched s l u.
Proof.
  intros H E. inversion H; subst; [apply watch_start; eapply same_trans; eassumption|]. eapply watch_frame; try eassumption. eapply same_trans; eassumption.
Qed.
Lemma prefix_snoc {A} (l p q : list A) b : l ++ [b] = p ++ q -> q <> [] -> p = l \/ exists q', l = p ++ q' /\ q' <> [].
Proof.
  intros E N. destruct (exists_last N) as (q' & x & ->). rewrite app_assoc in E. apply app_inj_tail in E. destruct E as [-> _].
  destruct q' as [|y q']; [left; now rewrite app_nil_r|right; exists (y :: q'); split; [reflexivity|discriminate]].
Qed.
Lemma watching_frame s l t c t1 : watching s l t -> ~ over s l -> do_frame t = Ok (c, t1) -> forall v,
  v = (if quietb t1 then m_silenceCyclesCounter t1 - c else m_silenceCycles t1) -> watching s (l ++ [quietb t1]) (set_m_silenceCyclesCounter v t1).
Proof.
  intros (W1 & I & L & C & P) N E v V. pose proof (do_frame_keeps _ _ _ E) as (S & _ & Cy & _). injection S as S1 _ _ S2 S3 _.
  assert (Q : c = cycles_per_frame s) by (rewrite Cy; unfold cycles_per_frame; now rewrite I).
  split; [|split; [|split; [|split]]].
  - eapply watch_frame; [exact W1|exact E|apply same_silence|apply quietb_quiet].
  - cbn. congruence.
  - cbn. congruence.
  - cbn [m_silenceCyclesCounter set_m_silenceCyclesCounter]. rewrite V. destruct (quietb t1); [rewrite run_true|rewrite run_false]; nia.
  - intros p q X Y. destruct (prefix_snoc _ _ _ _ X Y) as [->|(q' & -> & Z)]; [exact N|]. eapply P; [reflexivity|exact Z].
Qed.
Lemma watching_open s l t : watching s l t -> 0 < m_silenceCyclesCounter t -> ~ over s l.
Proof. intros (_ & _ & _ & C & _) H. unfold over. lia. Qed.

Lemma generate_iter_watching s l off lim sh f blk buf t x : 0 < m_silenceCycles s -> watching s l t -> 0 < m_silenceCyclesCounter t -> generate_iter off lim sh f (blk, buf, t) = Ok x ->
  match x with inl y => (exists l, watching s l (snd y)) /\ 0 < m_silenceCyclesCounter (snd y) | inr y => exists l, watching s l (snd y) end.
Proof.
  intros H0 W0 C E. unfold generate_iter in E.
  destruct (pair_generate _ _ _ _ _) as [[[bl bu] pp]| | |] eqn:P; cbn [bind] in E; try discriminate E. apply pair_generate_like in P.
  destruct (chk _) as [pl| | |]; cbn [bind] in E; try discriminate E. cbv zeta in E.
  assert (L1 : watching s l (set_m_blocksPlayed pl (set_m_pokeys pp t))).
  { destruct W0 as (W1 & W2). split; [|exact W2]. eapply watched_same; [exact W1|]. eapply same_trans; [|apply same_blocks]. destruct t. apply same_mk. exact P. }
  assert (C1 : 0 < m_silenceCyclesCounter (set_m_blocksPlayed pl (set_m_pokeys pp t))) by exact C.
  set (t1 := set_m_blocksPlayed pl (set_m_pokeys pp t)) in *. clearbody t1.
  unfold leave, continue_ in E. destruct (_ <=? _). { assert (x = inr (blk + bl, bu, t1)) as -> by congruence. exists l. exact L1. }
  destruct (do_frame t1) as [[c u]| | |] eqn:D; cbn [bind] in E; try discriminate E.
  pose proof (watching_frame _ _ _ _ _ L1 (watching_open _ _ _ L1 C1) D _ eq_refl) as L2.
  assert (LU : m_silenceCycles u = m_silenceCycles s) by apply L2. rewrite LU in E. replace (0 <? m_silenceCycles s) with true in E by lia.
  fold (quietb u) in E. destruct (quietb u) eqn:Q; [destruct (m_silenceCyclesCounter u - c <=? 0) eqn:Z|].
  all: match type of E with Ok ?y = _ => assert (x = y) as -> by congruence end; cbn [snd].
  - eexists. exact L2.
  - split; [eexists; exact L2|]. cbn. lia.
  - split; [rewrite LU in L2; eexists; exact L2|]. cbn. lia.
Qed.
Lemma generate_watching s l t buffer n f k buffer' t' : 0 < m_silenceCycles s -> watching s l t -> api_generate buffer n f t = Ok (k, buffer', t') -> exists l', watching s l' t'.
Proof.
  intros H0 W0. unfold api_generate, generate_at. destruct ((0 <? m_silenceCycles t) && (m_silenceCyclesCounter t <=? 0)) eqn:G.
  { intros E. assert (t' = t) as -> by congruence. exists l. exact W0. }
  assert (C : 0 < m_silenceCyclesCounter t) by (destruct W0 as (_ & _ & X & _); rewrite X in G; lia).
  cbv zeta. generalize generate_fuel. intros fuel E. apply bind_ok in E. destruct E as (lim & _ & E). apply bind_ok in E. destruct E as ([[b1 o1] s1] & L & E).
  apply (loopZ_keeps _ (fun x => (exists l, watching s l (snd x)) /\ 0 < m_silenceCyclesCounter (snd x)) (fun x => exists l, watching s l (snd x))) in L.
  - assert (s1 = t') as <- by congruence. exact L.
  - intros [[blk buf] t2] x [[l2 L2] C2] E2. cbn [snd] in L2, C2. exact (generate_iter_watching _ _ _ _ _ _ _ _ _ _ H0 L2 C2 E2).
  - split; [exists l; exact W0|exact C].
Qed.
Lemma serve_all_watching s l requests t t' : 0 < m_silenceCycles s -> Forall generating requests -> watching s l t -> serve_all requests t = Ok t' -> exists l', watching s l' t'.
Proof.
  intros H0. revert l t. induction requests as [|r rs IH]; intros l t F H E; cbn [serve_all] in E; [injection E as <-; exists l; exact H|].
  inversion F as [|? ? F1 F2]; subst. apply bind_ok in E. destruct E as (t1 & E1 & E). destruct r as [buffer n f| |rate|]; try contradiction F1; cbn [serve] in E1.
  - apply bind_ok in E1. destruct E1 as ([[k b] t2] & G & E1). injection E1 as ->. destruct (generate_watching _ _ _ _ _ _ _ _ _ H0 H G) as [l1 H1]. exact (IH _ _ F2 H1 E).
  - injection E1 as <-. refine (IH l _ F2 _ E). destruct H as (W1 & W2). split; [|exact W2]. eapply watched_same; [exact W1|]. reflexivity.
Qed.
Lemma watching_start s : 0 < m_silenceCycles s -> m_silenceCyclesCounter s = m_silenceCycles s -> watching s [] s.
Proof.
  intros H C. split; [apply watch_start; reflexivity|]. split; [reflexivity|]. split; [reflexivity|]. split; [unfold run; cbn; lia|].
  intros p q X Y. destruct p; [|discriminate X]. unfold over, run. cbn. lia.
Qed.

(* the frames depend on the machine only *)
Lemma quiet_same s t : same_machine s t -> (quiet s <-> quiet t).
Proof.
  intros H. pose proof (same_observed _ _ H) as O. unfold quiet. assert (V : forall i, api_channel_volume i s = api_channel_volume i t) by apply O.
  assert (F : m_gtiaOrCovoxPlayedThisFrame s = m_gtiaOrCovoxPlayedThisFrame t) by exact (f_equal m_gtiaOrCovoxPlayedThisFrame H).
  rewrite F. split; intros [A B]; (split; [intros i R; specialize (A i R); specialize (V i); congruence|exact B]).
Qed.
Lemma watched_determined s l1 l2 t u v w : same_machine s t -> watched s l1 u -> watched t l2 v -> length l1 = length l2 -> w = v -> l1 = l2 /\ same_machine u w.
Proof.
  intros H A. revert l2 v w. induction A as [u K|l1 x c x1 u b A IH D L Q]; intros l2 v w B N ->.
  - inversion B as [v0 K'|l y c' y1 v0 b' B1 D' L' Q']; subst.
    + split; [reflexivity|]. eapply same_trans; [apply same_sym, K|]. eapply same_trans; [exact H|exact K'].
    + rewrite app_length in N. cbn in N. lia.
  - inversion B as [v0 K'|l y c' y1 v0 b' B1 D' L' Q']; subst; [rewrite app_length in N; cbn in N; lia|].
    rewrite !app_length in N. cbn in N. destruct (IH l y y B1 ltac:(lia) eq_refl) as [-> M].
    pose proof (sim_ok _ _ _ _ _ (do_frame_same _ _ M) D D') as [_ M1]. cbn [snd] in M1. split.
    + f_equal. f_equal. pose proof (quiet_same _ _ M1) as S. destruct b, b'; try reflexivity; exfalso; [assert (false = true) by tauto|assert (false = true) by tauto]; discriminate.
    + eapply same_trans; [apply same_sym, L|]. eapply same_trans; [exact M1|exact L'].
Qed.
Lemma watched_prefix s l t p q : watched s l t -> l = p ++ q -> exists u, watched s p u.
Proof.
  intros A. revert p q. induction A as [u K|l x c x1 u b A IH D L Q]; intros p q E.
  - destruct p; [|discriminate E]. exists u. now apply watch_start.
  - destruct q as [|y q] using rev_ind.
    + rewrite app_nil_r in E. subst p. exists u. eapply watch_frame; eassumption.
    + rewrite app_assoc in E. apply app_inj_tail in E. destruct E as [E _]. exact (IH _ _ E).
Qed.
Lemma both_ended s l1 l2 t u : watching s l1 t -> watching s l2 u -> over s l1 -> over s l2 -> l1 = l2 /\ same_machine t u.
Proof.
  assert (X : forall l1 l2 t u, watching s l1 t -> watching s l2 u -> over s l1 -> ~ (length l1 < length l2)%nat).
  { clear. intros l1 l2 t u A B O N. pose proof (firstn_skipn (length l1) l2) as F. destruct B as (B & _ & _ & _ & P).
    destruct (watched_prefix _ _ _ _ _ B (eq_sym F)) as [v V].
    destruct (watched_determined s l1 (firstn (length l1) l2) s t v v (same_refl s) (proj1 A) V ltac:(rewrite firstn_length; lia) eq_refl) as [E _].
    refine (P _ _ (eq_sym F) _ _); [|rewrite <- E; exact O]. intros Z. apply (f_equal (@length bool)) in Z. rewrite skipn_length in Z. cbn in Z. lia. }
  intros A B O1 O2. pose proof (X _ _ _ _ A B O1). pose proof (X _ _ _ _ B A O2).
  apply (watched_determined s l1 l2 s t u u (same_refl s) (proj1 A) (proj1 B)); [lia|reflexivity].
Qed.

(* ---- seeking ---- *)
Lemma seek_step_counter block t x : seek_step block t = Ok x -> match x with inl u | inr u => m_silenceCycles u = m_silenceCycles t /\ m_silenceCyclesCounter u = m_silenceCyclesCounter t end.
Proof.
  unfold seek_step. intros E. apply bind_ok in E. destruct E as (e & _ & E). destruct (e <? block).
  - apply bind_ok in E. destruct E as ([c u] & D & E). unfold continue_ in E. injection E as <-.
    apply do_frame_keeps in D. destruct D as (S & _). injection S as _ _ _ S1 S2 _. cbn in S1, S2. split; congruence.
  - unfold leave in E. injection E as <-. split; reflexivity.
Qed.
Lemma seek_loop_counter fuel block s s1 : loopZ fuel (seek_step block) s = Ok s1 -> m_silenceCycles s1 = m_silenceCycles s /\ m_silenceCyclesCounter s1 = m_silenceCyclesCounter s.
Proof.
  intros G. apply (loopZ_keeps _ (fun x => m_silenceCycles x = m_silenceCycles s /\ m_silenceCyclesCounter x = m_silenceCyclesCounter s)
    (fun x => m_silenceCycles x = m_silenceCycles s /\ m_silenceCyclesCounter x = m_silenceCyclesCounter s)) in G; [exact G| |split; reflexivity].
  intros t x [I1 I2] E. apply seek_step_counter in E. destruct x as [u|u]; destruct E as [E1 E2]; split; congruence.
Qed.
Lemma seek_forward_counter block s b t : api_blocks_played s <= block -> api_seek_sample block s = Ok (b, t) ->
  m_silenceCycles t = m_silenceCycles s /\ m_silenceCyclesCounter t = m_silenceCyclesCounter s.
Proof.
  unfold api_seek_sample, api_blocks_played. intros H. replace (block <? m_blocksPlayed s) with false by lia. cbn [bind].
  generalize seek_fuel. intros fuel E. apply bind_ok in E. destruct E as (s1 & G & E). apply seek_loop_counter in G.
  assert (t = set_m_blocksPlayed block (set_m_pokeys (set_pp_readySamplesStart (block - m_blocksPlayed s1) (m_pokeys s1)) s1)) as -> by congruence. exact G.
Qed.
Lemma seek_back_counter block s t : block < api_blocks_played s -> api_seek_sample block s = Ok (true, t) ->
  m_silenceCycles t = m_silenceCycles s /\ m_silenceCyclesCounter t = m_silenceCycles s.
Proof.
  unfold api_seek_sample, api_blocks_played. intros H. replace (block <? m_blocksPlayed s) with true by lia.
  generalize seek_fuel. intros fuel E. apply bind_ok in E. destruct E as ([b s1] & P & E). destruct b; [|discriminate E].
  assert (R : 0 <= m_currentSong s < i_songs (m_info s)).
  { destruct ((m_currentSong s <? 0) || (i_songs (m_info s) <=? m_currentSong s)) eqn:X; [|lia]. unfold api_play_song in P. rewrite X in P. discriminate P. }
  apply play_song_counter in P; [|exact R]. apply bind_ok in E. destruct E as (s2 & G & E). apply seek_loop_counter in G.
  assert (t = set_m_blocksPlayed block (set_m_pokeys (set_pp_readySamplesStart (block - m_blocksPlayed s2) (m_pokeys s2)) s2)) as -> by congruence.
  cbn [m_silenceCycles m_silenceCyclesCounter set_m_blocksPlayed set_m_pokeys]. destruct P, G. split; congruence.
Qed.
Lemma detect_silence_int seconds s : api_detect_silence seconds s = (if (-1210 <=? seconds) && (seconds <=? 1210)
  then Ok (set_m_silenceCyclesCounter (seconds * pal_second) (set_m_silenceCycles (seconds * pal_second) s)) else UB UbOverflow).
Proof.
  unfold api_detect_silence, chk, pal_second. match goal with |- context [if ?c then Ok _ else _] => destruct c eqn:X end; cbn [bind];
    destruct ((-1210 <=? seconds) && (seconds <=? 1210)) eqn:Y; try reflexivity; exfalso; unfold is_int, int_min, int_max in X; lia.
Qed.
Lemma needed_enough seconds s l : 0 < seconds -> m_silenceCycles s = seconds * pal_second -> (over s l <-> frames_needed seconds s <= run l).
Proof.
  intros H L. unfold over, frames_needed. rewrite L. assert (C : 0 < cycles_per_frame s) by (unfold cycles_per_frame; destruct (i_ntsc _); lia).
  set (c := cycles_per_frame s) in *. set (n := seconds * pal_second). pose proof (Z.div_mod (n + c - 1) c ltac:(lia)). pose proof (Z.mod_pos_bound (n + c - 1) c C).
  set (q := (n + c - 1) / c) in *. nia.
Qed.
Lemma generate_over buffer n f s : 0 < m_silenceCycles s -> m_silenceCyclesCounter s <= 0 -> api_generate buffer n f s = Ok (0, buffer, s).
Proof. intros H C. unfold api_generate, generate_at. replace ((0 <? m_silenceCycles s) && (m_silenceCyclesCounter s <=? 0)) with true by lia. reflexivity. Qed.
