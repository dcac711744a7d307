(* The emulated machine does not depend on the sound *)
From Verif Require Import Base BaseFacts Loop MemModel InfoModel NativeModel WriterModel PokeyModel MachineModel PlayModel SoundSpec.

(* ---- two computations that both succeed ---- *)
Definition sim {A B} (R : A -> B -> Prop) (x : outcome A) (y : outcome B) : Prop :=
  match x, y with Ok a, Ok b => R a b | _, _ => True end.

Lemma sim_bind {A B C D} (R : A -> B -> Prop) (Q : C -> D -> Prop) x y (f : A -> outcome C) (g : B -> outcome D) :
  sim R x y -> (forall a b, R a b -> sim Q (f a) (g b)) -> sim Q (bind x f) (bind y g).
Proof.
  destruct x as [a| | |], y as [b| | |]; cbn [bind sim]; intros H1 H2; try exact I; try (now apply H2).
  all: unfold sim; match goal with |- match ?z with _ => _ end => destruct z end; exact I.
Qed.
Lemma sim_eq {A} (R : A -> A -> Prop) x : (forall a, R a a) -> sim R x x.
Proof. intros H. destruct x; cbn [sim]; auto. Qed.
Lemma sim_bind_eq {A C D} (Q : C -> D -> Prop) (x : outcome A) (f : A -> outcome C) (g : A -> outcome D) :
  (forall a, sim Q (f a) (g a)) -> sim Q (bind x f) (bind x g).
Proof. intros H. eapply sim_bind; [apply sim_eq with (R := eq); reflexivity|]. intros a b ->. apply H. Qed.
Lemma sim_any {A B} (x : outcome A) (y : outcome B) : sim (fun _ _ => True) x y.
Proof. destruct x, y; exact I. Qed.
Lemma sim_drop {A B C D} (Q : C -> D -> Prop) (x : outcome A) (y : outcome B) (f : A -> outcome C) (g : B -> outcome D) :
  (forall a b, sim Q (f a) (g b)) -> sim Q (bind x f) (bind y g).
Proof. intros H. eapply sim_bind; [apply sim_any|]. intros a b _. apply H. Qed.
Lemma sim_mono {A B} (R Q : A -> B -> Prop) x y : sim R x y -> (forall a b, R a b -> Q a b) -> sim Q x y.
Proof. destruct x, y; cbn [sim]; auto. Qed.

Definition sumR {A B C D} (R : A -> B -> Prop) (Q : C -> D -> Prop) (x : A + C) (y : B + D) : Prop :=
  match x, y with inl a, inl b => R a b | inr c, inr d => Q c d | _, _ => False end.
Definition pairR {A B C D} (R : A -> B -> Prop) (Q : C -> D -> Prop) (x : A * C) (y : B * D) : Prop := R (fst x) (fst y) /\ Q (snd x) (snd y).

Lemma sim_loop {S T U V} (R : S -> T -> Prop) (Q : U -> V -> Prop) f g n :
  (forall a b, R a b -> sim (sumR R Q) (f a) (g b)) -> forall a b, R a b -> sim Q (loop n f a) (loop n g b).
Proof.
  intros H. induction n as [|n IH]; intros a b Hab; cbn [loop].
  all: eapply sim_bind; [apply H; exact Hab|]; intros [x|x] [y|y] Hxy; cbn [sumR] in Hxy; try contradiction; cbn [sim]; auto.
Qed.
Lemma sim_loopZ {S T U V} (R : S -> T -> Prop) (Q : U -> V -> Prop) f g n :
  (forall a b, R a b -> sim (sumR R Q) (f a) (g b)) -> forall a b, R a b -> sim Q (loopZ n f a) (loopZ n g b).
Proof. intros H a b Hab. rewrite !loopZ_loop. now apply sim_loop with (R := R). Qed.

(* ---- POKEY ---- *)
Definition likep (p q : pokey) : Prop := emulated_pokey p = emulated_pokey q.
Definition likepp (p q : pokeyPair) : Prop := emulated_pokeys p = emulated_pokeys q.

Lemma likep_refl p : likep p p. Proof. reflexivity. Qed.
Lemma chan_like p q i : likep p q -> chan q i = chan p i.
Proof. intros H. exact (f_equal (fun r => chan r i) (eq_sym H)). Qed.
Lemma emulated_set_chan i c p : emulated_pokey (set_chan i c p) = set_chan i c (emulated_pokey p).
Proof. unfold set_chan. destruct (i =? 0); [reflexivity|]. destruct (i =? 1); [reflexivity|]. destruct (i =? 2); reflexivity. Qed.
Lemma upd_chan_like p q i f : likep p q -> likep (upd_chan i f p) (upd_chan i f q).
Proof. intros H. unfold likep, upd_chan. rewrite !emulated_set_chan, (chan_like _ _ i H). now rewrite H. Qed.
Lemma set_sum_like p q v : likep p q -> likep (set_pk_sumDACInputs v p) (set_pk_sumDACInputs v q). Proof. intros H. exact (f_equal (set_pk_sumDACInputs v) H). Qed.
Lemma set_r1_like p q v : likep p q -> likep (set_pk_reloadCycles1 v p) (set_pk_reloadCycles1 v q). Proof. intros H. exact (f_equal (set_pk_reloadCycles1 v) H). Qed.
Lemma set_r3_like p q v : likep p q -> likep (set_pk_reloadCycles3 v p) (set_pk_reloadCycles3 v q). Proof. intros H. exact (f_equal (set_pk_reloadCycles3 v) H). Qed.
Lemma set_div_like p q v : likep p q -> likep (set_pk_divCycles v p) (set_pk_divCycles v q). Proof. intros H. exact (f_equal (set_pk_divCycles v) H). Qed.
Lemma set_audctl_like p q v : likep p q -> likep (set_pk_audctl v p) (set_pk_audctl v q). Proof. intros H. exact (f_equal (set_pk_audctl v) H). Qed.
Lemma set_skctl_like p q v : likep p q -> likep (set_pk_skctl v p) (set_pk_skctl v q). Proof. intros H. exact (f_equal (set_pk_skctl v) H). Qed.
Lemma set_irqst_like p q v : likep p q -> likep (set_pk_irqst v p) (set_pk_irqst v q). Proof. intros H. exact (f_equal (set_pk_irqst v) H). Qed.
Lemma set_init_like p q v : likep p q -> likep (set_pk_init v p) (set_pk_init v q). Proof. intros H. exact (f_equal (set_pk_init v) H). Qed.
Lemma set_poly_like p q v : likep p q -> likep (set_pk_polyIndex v p) (set_pk_polyIndex v q). Proof. intros H. exact (f_equal (set_pk_polyIndex v) H). Qed.
Lemma set_out_like p q v w : likep p q -> likep (set_pk_sumDACOutputs v p) (set_pk_sumDACOutputs w q). Proof. intros H. exact H. Qed.
Lemma set_buf_like p q v w : likep p q -> likep (set_pk_deltaBuffer v p) (set_pk_deltaBuffer w q). Proof. intros H. exact H. Qed.
Lemma set_buf_like_l p q v : likep p q -> likep (set_pk_deltaBuffer v p) q. Proof. intros H. exact H. Qed.
Lemma set_buf_like_r p q v : likep p q -> likep p (set_pk_deltaBuffer v q). Proof. intros H. exact H. Qed.
#[local] Hint Resolve likep_refl upd_chan_like set_sum_like set_out_like set_buf_like set_buf_like_l set_buf_like_r set_r1_like set_r3_like set_div_like set_audctl_like
  set_skctl_like set_irqst_like set_init_like set_poly_like : like.

(* the fields of the right POKEY by those of the left *)
Lemma pf_ch0 p q : likep p q -> pk_ch0 q = pk_ch0 p. Proof. intros H. exact (f_equal pk_ch0 (eq_sym H)). Qed.
Lemma pf_ch1 p q : likep p q -> pk_ch1 q = pk_ch1 p. Proof. intros H. exact (f_equal pk_ch1 (eq_sym H)). Qed.
Lemma pf_ch2 p q : likep p q -> pk_ch2 q = pk_ch2 p. Proof. intros H. exact (f_equal pk_ch2 (eq_sym H)). Qed.
Lemma pf_ch3 p q : likep p q -> pk_ch3 q = pk_ch3 p. Proof. intros H. exact (f_equal pk_ch3 (eq_sym H)). Qed.
Lemma pf_audctl p q : likep p q -> pk_audctl q = pk_audctl p. Proof. intros H. exact (f_equal pk_audctl (eq_sym H)). Qed.
Lemma pf_skctl p q : likep p q -> pk_skctl q = pk_skctl p. Proof. intros H. exact (f_equal pk_skctl (eq_sym H)). Qed.
Lemma pf_irqst p q : likep p q -> pk_irqst q = pk_irqst p. Proof. intros H. exact (f_equal pk_irqst (eq_sym H)). Qed.
Lemma pf_init p q : likep p q -> pk_init q = pk_init p. Proof. intros H. exact (f_equal pk_init (eq_sym H)). Qed.
Lemma pf_div p q : likep p q -> pk_divCycles q = pk_divCycles p. Proof. intros H. exact (f_equal pk_divCycles (eq_sym H)). Qed.
Lemma pf_r1 p q : likep p q -> pk_reloadCycles1 q = pk_reloadCycles1 p. Proof. intros H. exact (f_equal pk_reloadCycles1 (eq_sym H)). Qed.
Lemma pf_r3 p q : likep p q -> pk_reloadCycles3 q = pk_reloadCycles3 p. Proof. intros H. exact (f_equal pk_reloadCycles3 (eq_sym H)). Qed.
Lemma pf_poly p q : likep p q -> pk_polyIndex q = pk_polyIndex p. Proof. intros H. exact (f_equal pk_polyIndex (eq_sym H)). Qed.
Lemma pf_sum p q : likep p q -> pk_sumDACInputs q = pk_sumDACInputs p. Proof. intros H. exact (f_equal pk_sumDACInputs (eq_sym H)). Qed.
Ltac pfields H :=
  rewrite ?(pf_ch0 _ _ H), ?(pf_ch1 _ _ H), ?(pf_ch2 _ _ H), ?(pf_ch3 _ _ H), ?(pf_audctl _ _ H), ?(pf_skctl _ _ H), ?(pf_irqst _ _ H), ?(pf_init _ _ H), ?(pf_div _ _ H),
    ?(pf_r1 _ _ H), ?(pf_r3 _ _ H), ?(pf_poly _ _ H), ?(pf_sum _ _ H), ?(fun i => chan_like _ _ i H).

(* the samples do not count *)
Lemma external_like pp pp' c c' d d' p q : likep p q -> sim likep (add_external_delta pp c d p) (add_external_delta pp' c' d' q).
Proof.
  intros H.
  assert (forall pp c d p, match add_external_delta pp c d p with Ok r => likep p r | _ => True end) as K.
  { clear. intros. unfold add_external_delta. destruct (d =? 0); [reflexivity|]. match goal with |- context [bind ?x _] => destruct x end; cbn [bind]; [|exact I|exact I|exact I].
    cbv zeta. match goal with |- context [bind ?x _] => destruct x end; cbn [bind]; [reflexivity|exact I|exact I|exact I]. }
  pose proof (K pp c d p) as K1. pose proof (K pp' c' d' q) as K2.
  destruct (add_external_delta pp c d p), (add_external_delta pp' c' d' q); cbn [sim]; try exact I. unfold likep in *. congruence.
Qed.
Lemma add_delta_like pp pp' c d p q : likep p q -> sim likep (add_delta pp c d p) (add_delta pp' c d q).
Proof.
  intros H. unfold add_delta. cbv zeta. pfields H.
  assert (H1 : likep (set_pk_sumDACInputs (pk_sumDACInputs p + d) p) (set_pk_sumDACInputs (pk_sumDACInputs p + d) q)) by auto with like.
  pfields H1. apply sim_bind_eq. intros v. apply sim_drop. intros e e'. eapply sim_bind; [apply external_like; exact H1|]. intros x y Hxy. cbn [sim]. auto with like.
Qed.
Lemma slope_like pp pp' i c p q : likep p q -> sim likep (slope pp i c p) (slope pp' i c q).
Proof.
  intros H. unfold slope. cbv zeta. pose proof (upd_chan_like _ _ i (fun c => set_ch_delta (- ch_delta c) c) H) as H1. rewrite (chan_like _ _ i H1). now apply add_delta_like.
Qed.
#[local] Hint Resolve external_like add_delta_like slope_like : like.

(* one step through the two sides *)
Ltac plike := auto 10 with like.
Ltac sim1 :=
  match goal with
  | |- True => exact I
  | |- sim _ (UB _) _ => exact I
  | |- sim _ Fail _ => exact I
  | |- sim _ OutOfFuel _ => exact I
  | |- sim _ (Ok _) (Ok _) => cbn [sim]
  | |- sim _ (bind ?x _) (bind ?x _) => apply sim_bind_eq; intros
  | |- sim _ (if ?b then _ else _) (if ?b then _ else _) => destruct b eqn:?
  | |- likep (if ?b then _ else _) (if ?b then _ else _) => destruct b eqn:?
  | |- likep _ _ => solve [plike]
  end.

Lemma do_tick_like pp pp' ch c p q : likep p q -> sim likep (do_tick pp ch c p) (do_tick pp' ch c q).
Proof.
  intros H. unfold do_tick. cbv zeta. pose proof (upd_chan_like _ _ ch (fun c => set_ch_tickCycle (ch_tickCycle c + ch_periodCycles c) c) H) as H1.
  set (p1 := upd_chan ch _ p) in *. set (q1 := upd_chan ch _ q) in *. clearbody p1 q1. pfields H1.
  repeat first [sim1 | apply slope_like; plike].
Qed.
#[local] Hint Resolve do_tick_like : like.
Lemma tick2_like pp pp' c p q : likep p q -> sim likep (tick2 pp c p) (tick2 pp' c q).
Proof.
  intros H. unfold tick2. pfields H. sim1; [|sim1; exact H].
  eapply sim_bind with (R := likep); [sim1; [plike|exact H]|]. plike.
Qed.
Lemma tick3_like pp pp' c p q : likep p q -> sim likep (tick3 pp c p) (tick3 pp' c q).
Proof.
  intros H. unfold tick3. cbv zeta. pfields H. sim1; [|sim1; exact H].
  match goal with |- sim _ (bind (if _ then _ else Ok ?x) _) (bind (if _ then _ else Ok ?y) _) => assert (H1 : likep x y) by (repeat sim1; exact H); set (p1 := x) in *; set (q1 := y) in * end.
  clearbody p1 q1. pfields H1. eapply sim_bind with (R := likep); [sim1; [plike|exact H1]|]. plike.
Qed.
Lemma tick0_like pp pp' c p q : likep p q -> sim likep (tick0 pp c p) (tick0 pp' c q).
Proof. intros H. unfold tick0. cbv zeta. pfields H. sim1; [|sim1; exact H]. apply do_tick_like. repeat sim1; exact H. Qed.
Lemma tick1_like pp pp' c p q : likep p q -> sim likep (tick1 pp c p) (tick1 pp' c q).
Proof. intros H. unfold tick1. cbv zeta. pfields H. sim1; [|sim1; exact H]. apply do_tick_like. repeat sim1; exact H. Qed.
Lemma generate_until_like pp pp' c p q : likep p q -> sim likep (generate_until pp c p) (generate_until pp' c q).
Proof.
  intros H. unfold generate_until. assert (N : forall p q, likep p q -> next_tick c q = next_tick c p) by (intros x y K; unfold next_tick; pfields K; reflexivity).
  rewrite (N _ _ H). apply sim_loopZ with (R := likep); [|exact H]. clear p q H. intros p q H. unfold generate_step. cbv zeta. rewrite (N _ _ H).
  generalize (next_tick c p). intros cy. destruct (cy =? c); [exact H|]. eapply sim_bind; [apply tick2_like; exact H|]. clear p q H. intros p q H.
  eapply sim_bind; [apply tick3_like; exact H|]. clear p q H. intros p q H.
  eapply sim_bind; [apply tick0_like; exact H|]. clear p q H. intros p q H.
  eapply sim_bind; [apply tick1_like; exact H|]. clear p q H. intros p q H. exact H.
Qed.
#[local] Hint Resolve generate_until_like : like.
Ltac gen_until H p q := repeat match goal with E : _ = true |- _ => clear E | E : _ = false |- _ => clear E end; eapply sim_bind; [apply generate_until_like; exact H|]; clear p q H; intros p q H.

Lemma set_audc_like pp pp' i d c p q : likep p q -> sim likep (set_audc pp i d c p) (set_audc pp' i d c q).
Proof.
  intros H. unfold set_audc. cbv zeta. pfields H. sim1; [exact H|]. gen_until H p q.
  pose proof (upd_chan_like _ _ i (set_ch_audc d) H) as H1. set (p1 := upd_chan i _ p) in *. set (q1 := upd_chan i _ q) in *. clearbody p1 q1. pfields H1.
  sim1; [|sim1; [|sim1; plike]].
  all: eapply sim_bind with (R := likep); [sim1; [exact H1|plike]|]; intros; cbn [sim]; plike.
Qed.
Lemma for_channels_like f p q : likep p q -> likep (for_channels f p) (for_channels f q).
Proof. intros H. unfold for_channels. plike. Qed.
#[local] Hint Resolve for_channels_like : like.
Lemma end_frame_like pp pp' c p q : likep p q -> sim likep (pokey_end_frame pp c p) (pokey_end_frame pp' c q).
Proof. intros H. unfold pokey_end_frame. cbv zeta. gen_until H p q. pfields H. cbn [sim]. plike. Qed.
Lemma start_frame_like p q : likep p q -> sim likep (start_frame p) (start_frame q).
Proof.
  intros H. unfold start_frame. cbv zeta. apply sim_drop. intros a b. destruct (_ && _); [exact I|]. destruct (_ && _); [exact I|]. cbn [sim]. plike.
Qed.
Lemma initialize_like r r' p q : sim likep (pokey_initialize r p) (pokey_initialize r' q).
Proof.
  unfold pokey_initialize. cbv zeta.
  assert (U : forall A B (R : A -> B -> Prop) x u, sim R x (UB u)) by (intros; destruct x; exact I).
  destruct (_ <? 0); [exact I|]. destruct (r =? 0); [exact I|].
  destruct (_ <? 0); [apply U|]. destruct (r' =? 0); [apply U|]. apply start_frame_like. reflexivity.
Qed.
Lemma mute_like m p q : likep p q -> likep (pokey_mute m p) (pokey_mute m q).
Proof. intros H. unfold pokey_mute. cbv zeta. plike. Qed.
Lemma init_mute_like c p q : likep p q -> likep (init_mute c p) (init_mute c q).
Proof. intros H. unfold init_mute. cbv zeta. pfields H. plike. Qed.
#[local] Hint Resolve mute_like init_mute_like : like.

Ltac zcases := repeat match goal with |- sim _ (match ?z with _ => _ end) (match ?z with _ => _ end) => destruct z; try exact I end.
Ltac audf_like H p q H1 p1 q1 :=
  intros H; cbv zeta; pfields H; sim1; [exact H|]; gen_until H p q;
  match goal with |- context [upd_chan ?i (set_ch_audf ?d) p] =>
    pose proof (upd_chan_like _ _ i (set_ch_audf d) H) as H1; set (p1 := upd_chan i (set_ch_audf d) p) in *; set (q1 := upd_chan i (set_ch_audf d) q) in *; clearbody p1 q1 end;
  pfields H1; zcases; cbn [sim]; plike.
Lemma audf0_like pp pp' d c p q : likep p q -> sim likep (poke_audf0 d c pp p) (poke_audf0 d c pp' q).
Proof. unfold poke_audf0. audf_like H p q H1 p1 q1. Qed.
Lemma audf1_like pp pp' d c p q : likep p q -> sim likep (poke_audf1 d c pp p) (poke_audf1 d c pp' q).
Proof. unfold poke_audf1. audf_like H p q H1 p1 q1. Qed.
Lemma audf2_like pp pp' d c p q : likep p q -> sim likep (poke_audf2 d c pp p) (poke_audf2 d c pp' q).
Proof. unfold poke_audf2. audf_like H p q H1 p1 q1. Qed.
Lemma audf3_like pp pp' d c p q : likep p q -> sim likep (poke_audf3 d c pp p) (poke_audf3 d c pp' q).
Proof. unfold poke_audf3. audf_like H p q H1 p1 q1. Qed.
Lemma pair0_like d p q : likep p q -> sim likep (audctl_pair0 d p) (audctl_pair0 d q).
Proof. intros H. unfold audctl_pair0. cbv zeta. pfields H. zcases; cbn [sim]; plike. Qed.
Lemma pair2_like d p q : likep p q -> sim likep (audctl_pair2 d p) (audctl_pair2 d q).
Proof. intros H. unfold audctl_pair2. cbv zeta. pfields H. zcases; cbn [sim]; plike. Qed.
Lemma audctl_like pp pp' d c p q : likep p q -> sim likep (poke_audctl d c pp p) (poke_audctl d c pp' q).
Proof.
  intros H. unfold poke_audctl. cbv zeta. pfields H. sim1; [exact H|]. gen_until H p q.
  eapply sim_bind; [apply pair0_like; plike|]. clear p q H. intros p q H. eapply sim_bind; [apply pair2_like; plike|]. clear p q H. intros p q H. cbn [sim]. plike.
Qed.
Definition eqlike (x y : Z * pokey) : Prop := fst y = fst x /\ likep (snd x) (snd y).
Lemma irqen_channel_like d c i x y : eqlike x y -> sim eqlike (irqen_channel d c i x) (irqen_channel d c i y).
Proof.
  destruct x as [n p], y as [n' q]. intros [E H]. cbn [fst snd] in E, H. subst n'. unfold irqen_channel. cbv zeta. pfields H. sim1; [sim1|].
  - apply sim_bind_eq. intros t. split; [reflexivity|cbn [snd]; plike].
  - split; [reflexivity|exact H].
  - split; [reflexivity|cbn [snd]; plike].
Qed.
Lemma irqen_like d c p q : likep p q -> sim eqlike (poke_irqen d c p) (poke_irqen d c q).
Proof.
  intros H. unfold poke_irqen. cbv zeta. pfields H.
  eapply sim_bind; [apply irqen_channel_like; split; [reflexivity|cbn [snd]; plike]|]. intros x y Hxy.
  eapply sim_bind; [apply irqen_channel_like; exact Hxy|]. intros x' y' Hxy'. now apply irqen_channel_like.
Qed.
Lemma skctl_like pp pp' d c p q : likep p q -> sim likep (poke_skctl d c pp p) (poke_skctl d c pp' q).
Proof.
  intros H. unfold poke_skctl. cbv zeta. pfields H. sim1; [exact H|]. gen_until H p q.
  pose proof (set_skctl_like _ _ d H) as H1. set (p1 := set_pk_skctl d p) in *. set (q1 := set_pk_skctl d q) in *. clearbody p1 q1. pfields H1.
  cbn [sim]. destruct (pk_init p1 && negb (Z.land d 3 =? 0)); plike.
Qed.
Lemma plain_like m m' : sim likep m m' -> sim eqlike (plain m) (plain m').
Proof. intros H. unfold plain. eapply sim_bind; [exact H|]. intros a b K. split; [reflexivity|exact K]. Qed.
Lemma pokey_poke_like pp pp' a d c p q : likep p q -> sim eqlike (pokey_poke pp a d c p) (pokey_poke pp' a d c q).
Proof.
  intros H. unfold pokey_poke.
  zcases; first [apply plain_like; first [now apply set_audc_like | now apply audf0_like | now apply audf1_like | now apply audf2_like | now apply audf3_like | now apply audctl_like | now apply skctl_like]
                | now apply irqen_like | split; [reflexivity|cbn [snd]; plike]].
Qed.
Lemma check_timer_like c i x y : eqlike x y -> eqlike (check_timer c i x) (check_timer c i y).
Proof.
  destruct x as [n p], y as [n' q]. intros [E H]. cbn [fst snd] in E, H. subst n'. unfold check_timer. cbv zeta. pfields H.
  destruct (_ <=? c); split; cbn [fst snd]; plike.
Qed.
Lemma pokey_check_irq_like c n p q : likep p q -> eqlike (pokey_check_irq c n p) (pokey_check_irq c n q).
Proof. intros H. unfold pokey_check_irq. repeat apply check_timer_like. split; [reflexivity|exact H]. Qed.
Lemma end_timers_like c p q : likep p q -> likep (end_timers c p) (end_timers c q).
Proof. intros H. unfold end_timers. plike. Qed.
#[local] Hint Resolve end_timers_like : like.

(* ---- both POKEYs ---- *)
Lemma likepp_iff pp pp' : likepp pp pp' <-> pp_extraPokeyMask pp' = pp_extraPokeyMask pp /\ likep (pp_basePokey pp) (pp_basePokey pp') /\ likep (pp_extraPokey pp) (pp_extraPokey pp').
Proof.
  split.
  - intros H. split; [exact (f_equal pp_extraPokeyMask (eq_sym H))|]. split; [exact (f_equal pp_basePokey H)|exact (f_equal pp_extraPokey H)].
  - intros (H1 & H2 & H3). unfold likepp, emulated_pokeys. rewrite H1. unfold likep in H2, H3. now rewrite H2, H3.
Qed.
Lemma likepp_refl pp : likepp pp pp. Proof. reflexivity. Qed.
Lemma set_base_like pp pp' p q : likepp pp pp' -> likep p q -> likepp (set_pp_basePokey p pp) (set_pp_basePokey q pp').
Proof. rewrite !likepp_iff. intros (H1 & H2 & H3) H. split; [exact H1|split; [exact H|exact H3]]. Qed.
Lemma set_extra_like pp pp' p q : likepp pp pp' -> likep p q -> likepp (set_pp_extraPokey p pp) (set_pp_extraPokey q pp').
Proof. rewrite !likepp_iff. intros (H1 & H2 & H3) H. split; [exact H1|split; [exact H2|exact H]]. Qed.
Lemma base_like pp pp' : likepp pp pp' -> likep (pp_basePokey pp) (pp_basePokey pp'). Proof. intros H. exact (f_equal pp_basePokey H). Qed.
Lemma extra_like pp pp' : likepp pp pp' -> likep (pp_extraPokey pp) (pp_extraPokey pp'). Proof. intros H. exact (f_equal pp_extraPokey H). Qed.
Lemma mask_like pp pp' : likepp pp pp' -> pp_extraPokeyMask pp' = pp_extraPokeyMask pp. Proof. intros H. exact (f_equal pp_extraPokeyMask (eq_sym H)). Qed.
Lemma set_start_like pp pp' v w : likepp pp pp' -> likepp (set_pp_readySamplesStart v pp) (set_pp_readySamplesStart w pp'). Proof. intros H. exact H. Qed.
Lemma set_end_like pp pp' v w : likepp pp pp' -> likepp (set_pp_readySamplesEnd v pp) (set_pp_readySamplesEnd w pp'). Proof. intros H. exact H. Qed.
Lemma set_offset_like pp pp' v w : likepp pp pp' -> likepp (set_pp_sampleOffset v pp) (set_pp_sampleOffset w pp'). Proof. intros H. exact H. Qed.
#[local] Hint Resolve likepp_refl set_base_like set_extra_like base_like extra_like set_start_like set_end_like set_offset_like : like.

Definition eqlikepp (x y : Z * pokeyPair) : Prop := fst y = fst x /\ likepp (snd x) (snd y).
Lemma pair_poke_like a d c pp pp' : likepp pp pp' -> sim eqlikepp (pair_poke a d c pp) (pair_poke a d c pp').
Proof.
  intros H. unfold pair_poke. rewrite (mask_like _ _ H). sim1.
  - eapply sim_bind; [apply pokey_poke_like, extra_like, H|]. intros [t p] [t' q] [E K]. cbn [fst snd] in E, K. subst t'. split; [reflexivity|cbn [snd]; plike].
  - eapply sim_bind; [apply pokey_poke_like, base_like, H|]. intros [t p] [t' q] [E K]. cbn [fst snd] in E, K. subst t'. split; [reflexivity|cbn [snd]; plike].
Qed.
Lemma pair_peek_like a c pp pp' : likepp pp pp' -> pair_peek a c pp' = pair_peek a c pp.
Proof.
  intros H. unfold pair_peek. cbv zeta. rewrite (mask_like _ _ H). pose proof (extra_like _ _ H) as H1. pose proof (base_like _ _ H) as H2.
  destruct (negb _); [pfields H1|pfields H2]; reflexivity.
Qed.
Lemma pair_start_frame_like pp pp' : likepp pp pp' -> sim likepp (pair_start_frame pp) (pair_start_frame pp').
Proof.
  intros H. unfold pair_start_frame. cbv zeta. eapply sim_bind; [apply start_frame_like, base_like, H|]. intros p q K.
  pose proof (set_base_like _ _ _ _ H K) as H1. rewrite (mask_like _ _ H1). sim1; [exact H1|].
  eapply sim_bind; [apply start_frame_like, extra_like, H1|]. intros p' q' K'. cbn [sim]. plike.
Qed.
Lemma pair_end_frame_like c pp pp' : likepp pp pp' -> sim likepp (pair_end_frame c pp) (pair_end_frame c pp').
Proof.
  intros H. unfold pair_end_frame. cbv zeta. eapply sim_bind; [apply end_frame_like, base_like, H|]. intros p q K.
  pose proof (set_base_like _ _ _ _ H K) as H1. rewrite (mask_like _ _ H1).
  eapply sim_bind with (R := likepp).
  { sim1; [exact H1|]. eapply sim_bind; [apply end_frame_like, extra_like, H1|]. intros p' q' K'. cbn [sim]. plike. }
  intros a b H2. apply sim_drop. intros x y. apply sim_drop. intros x' y'. cbn [sim]. plike.
Qed.
Lemma pair_initialize_like n st r r' pp pp' : sim likepp (pair_initialize n st r pp) (pair_initialize n st r' pp').
Proof.
  unfold pair_initialize. eapply sim_bind; [apply initialize_like|]. intros b b' Hb. eapply sim_bind; [apply initialize_like|]. intros e e' He.
  apply sim_drop. intros f f'. cbn [sim]. apply likepp_iff. auto.
Qed.

(* ---- the machine ---- *)
Ltac simp_m := cbv beta iota delta [m_memory m_cycle m_pc m_a m_x m_y m_s m_nz m_c m_vdi m_nextEventCycle m_nextScanlineCycle m_nmist m_consol m_covox m_pokeys m_info m_nextPlayerCycle
  m_tmcPerFrameCounter m_currentSong m_currentDuration m_blocksPlayed m_silenceCycles m_silenceCyclesCounter m_gtiaOrCovoxPlayedThisFrame m_currentSampleRate
  set_m_memory set_m_cycle set_m_pc set_m_a set_m_x set_m_y set_m_s set_m_nz set_m_c set_m_vdi set_m_nextEventCycle set_m_nextScanlineCycle set_m_nmist set_m_consol set_m_covox set_m_pokeys
  set_m_info set_m_nextPlayerCycle set_m_tmcPerFrameCounter set_m_currentSong set_m_currentDuration set_m_blocksPlayed set_m_silenceCycles set_m_silenceCyclesCounter
  set_m_gtiaOrCovoxPlayedThisFrame set_m_currentSampleRate load_a load_x load_y skip add_cycles compare fst snd].
Lemma same_cases s t : same_machine s t -> exists pp bp sc scc sr, likepp (m_pokeys s) pp /\
  t = set_m_currentSampleRate sr (set_m_silenceCyclesCounter scc (set_m_silenceCycles sc (set_m_blocksPlayed bp (set_m_pokeys pp s)))).
Proof.
  intros H. exists (m_pokeys t), (m_blocksPlayed t), (m_silenceCycles t), (m_silenceCyclesCounter t), (m_currentSampleRate t). split; [exact (f_equal m_pokeys H)|].
  destruct s, t. unfold same_machine, emulated in H. cbn in H. injection H. intros. subst. reflexivity.
Qed.
Lemma same_mk a b c d e f g h i j k l m n o pp pp' q r u v w x x' y y' z z' aa bb bb' : likepp pp pp' ->
  same_machine (mkAsap a b c d e f g h i j k l m n o pp q r u v w x y z aa bb) (mkAsap a b c d e f g h i j k l m n o pp' q r u v w x' y' z' aa bb').
Proof. intros H. unfold same_machine, emulated. cbn. unfold likepp in H. now rewrite H. Qed.
(* two like machines as records of the same fields *)
Ltac unsame H :=
  match type of H with
  | same_machine ?s ?t => let pp' := fresh "pp'" in let K := fresh "K" in
    let u1 := fresh "u" in let u2 := fresh "u" in let u3 := fresh "u" in let u4 := fresh "u" in
    destruct (same_cases _ _ H) as (pp' & u1 & u2 & u3 & u4 & K & ->); clear H;
    let v0 := fresh "v" in let v1 := fresh "v" in let v2 := fresh "v" in let v3 := fresh "v" in let v4 := fresh "v" in let v5 := fresh "v" in let v6 := fresh "v" in let v7 := fresh "v" in let v8 := fresh "v" in let v9 := fresh "v" in let v10 := fresh "v" in let v11 := fresh "v" in let v12 := fresh "v" in let v13 := fresh "v" in let v14 := fresh "v" in let v15 := fresh "v" in let v16 := fresh "v" in let v17 := fresh "v" in let v18 := fresh "v" in let v19 := fresh "v" in let v20 := fresh "v" in let v21 := fresh "v" in let v22 := fresh "v" in let v23 := fresh "v" in let v24 := fresh "v" in let v25 := fresh "v" in 
    destruct s as [v0 v1 v2 v3 v4 v5 v6 v7 v8 v9 v10 v11 v12 v13 v14 v15 v16 v17 v18 v19 v20 v21 v22 v23 v24 v25]; simp_m; cbn [m_pokeys] in K
  end.
Ltac same_tac := cbn [snd]; simp_m; apply same_mk; plike.
Definition eqsame {A} (x y : A * asap) : Prop := fst y = fst x /\ same_machine (snd x) (snd y).

Lemma same_set_pokeys s t pp pp' : same_machine s t -> likepp pp pp' -> same_machine (set_m_pokeys pp s) (set_m_pokeys pp' t).
Proof. intros H L. unsame H. same_tac. Qed.
Lemma same_pokeys s t : same_machine s t -> likepp (m_pokeys s) (m_pokeys t).
Proof. intros H. exact (f_equal m_pokeys H). Qed.
Lemma mem_rd_same s t a : same_machine s t -> mem_rd t a = mem_rd s a.
Proof. intros H. exact (f_equal (fun r => mem_rd r a) (eq_sym H)). Qed.
Lemma zp_word_same s t a : same_machine s t -> zp_word t a = zp_word s a.
Proof. intros H. exact (f_equal (fun r => zp_word r a) (eq_sym H)). Qed.
Lemma is_irq_same s t : same_machine s t -> is_irq t = is_irq s.
Proof. intros H. exact (f_equal is_irq (eq_sym H)). Qed.
Lemma peek_hardware_same s t a : same_machine s t -> peek_hardware t a = peek_hardware s a.
Proof. intros H. unsame H. unfold peek_hardware, mem_rd. simp_m. rewrite (pair_peek_like _ _ _ _ K). reflexivity. Qed.
Lemma cpu_peek_same s t a : same_machine s t -> cpu_peek t a = cpu_peek s a.
Proof. intros H. unfold cpu_peek. rewrite (peek_hardware_same _ _ _ H), (mem_rd_same _ _ _ H). reflexivity. Qed.
Lemma mem_wr_same a d s t : same_machine s t -> sim same_machine (mem_wr a d s) (mem_wr a d t).
Proof. intros H. unsame H. unfold mem_wr. simp_m. apply sim_bind_eq. intros m. cbn [sim]. same_tac. Qed.

Lemma poke_hardware_same a d s t : same_machine s t -> sim same_machine (poke_hardware a d s) (poke_hardware a d t).
Proof.
  intros H. unfold poke_hardware. destruct (Z.shiftr a 8 =? 210).
  { unsame H. eapply sim_bind; [apply pair_poke_like; exact K|]. intros [x pp1] [y pp2] [E L]. cbn [fst snd] in E, L. subst y. cbn [sim]. destruct (x <? _); same_tac. }
  destruct (_ =? _); [unsame H; cbn [sim]; same_tac|].
  destruct (_ =? _); [unsame H; cbn [sim]; same_tac|].
  assert (E : i_covox (m_info t) = i_covox (m_info s)) by exact (f_equal (fun r => i_covox (m_info r)) (eq_sym H)). rewrite E. clear E.
  destruct (_ =? _).
  { unsame H. cbv zeta. sim1; [same_tac|]. eapply sim_bind with (R := likepp).
    - sim1; (eapply sim_bind; [apply external_like; plike|]; intros p q L; cbn [sim]; plike).
    - intros x y L. cbn [sim]. same_tac. }
  destruct (_ =? _); [|now apply mem_wr_same].
  unsame H. cbv zeta. eapply sim_bind with (R := same_machine).
  - sim1; [same_tac|]. eapply sim_bind; [apply external_like; plike|]. intros p q L. eapply sim_bind; [apply external_like; plike|]. intros p' q' L'. cbn [sim]. same_tac.
  - intros x y L. unsame L. cbn [sim]. same_tac.
Qed.
Lemma cpu_poke_same a d s t : same_machine s t -> sim same_machine (cpu_poke a d s) (cpu_poke a d t).
Proof. intros H. unfold cpu_poke. destruct (_ =? _); [now apply poke_hardware_same|now apply mem_wr_same]. Qed.

#[local] Hint Resolve mem_wr_same poke_hardware_same cpu_poke_same : sims.
#[local] Hint Extern 1 (same_machine (mkAsap _ _ _ _ _ _ _ _ _ _ _ _ _ _ _ _ _ _ _ _ _ _ _ _ _ _) _) => (apply same_mk; plike) : sims.

Ltac sim_m :=
  match goal with
  | |- True => exact I
  | |- sim _ (UB _) _ => exact I
  | |- context [if ?b then mkAsap _ _ _ _ _ _ _ _ _ _ _ _ _ _ _ _ _ _ _ _ _ _ _ _ _ _ else _] => destruct b
  | |- sim _ (bind (mem_rd ?s ?a) _) (bind (mem_rd ?t ?a) _) => rewrite (mem_rd_same s t a) by (solve [auto with sims])
  | |- sim _ (bind (zp_word ?s ?a) _) (bind (zp_word ?t ?a) _) => rewrite (zp_word_same s t a) by (solve [auto with sims])
  | |- sim _ (bind (cpu_peek ?s ?a) _) (bind (cpu_peek ?t ?a) _) => rewrite (cpu_peek_same s t a) by (solve [auto with sims])
  | |- sim _ (bind (peek_hardware ?s ?a) _) (bind (peek_hardware ?t ?a) _) => rewrite (peek_hardware_same s t a) by (solve [auto with sims])
  | |- sim _ (bind ?x _) (bind ?x _) => apply sim_bind_eq; intros
  | |- sim _ (bind _ _) (bind _ _) =>
    eapply sim_bind; [solve [eauto with sims]|];
    let x := fresh "x" in let y := fresh "y" in let L := fresh "L" in intros x y L;
    first [unsame L
          | destruct x as [? x], y as [? y]; destruct L as [L1 L]; cbn [fst snd] in L1, L; subst; unsame L]
  | |- sim _ (if ?b then _ else _) (if ?b then _ else _) => destruct b
  | |- sim _ (Ok _) (Ok _) => cbn [sim]
  | |- sim _ (match ?z with _ => _ end) (match ?z with _ => _ end) => destruct z
  | |- eqsame _ _ => split; [reflexivity|]
  | |- same_machine (if ?b then _ else _) (if ?b then _ else _) => destruct b
  | |- same_machine (match ?z with _ => _ end) (match ?z with _ => _ end) => destruct z
  | |- same_machine _ _ => solve [same_tac]
  | |- sim _ _ _ => solve [eauto with sims]
  end.
Ltac go H := intros H; unsame H; cbv zeta; simp_m; repeat (sim_m; cbv zeta; simp_m).

Lemma peek_rmw_same a s t : same_machine s t -> sim eqsame (peek_rmw a s) (peek_rmw a t).
Proof. unfold peek_rmw. go H. Qed.
Lemma pull_same s t : same_machine s t -> sim eqsame (pull s) (pull t).
Proof. unfold pull. go H. Qed.
#[local] Hint Resolve peek_rmw_same pull_same : sims.
Lemma pull_flags_same s t : same_machine s t -> sim same_machine (pull_flags s) (pull_flags t).
Proof. unfold pull_flags. go H. Qed.
Lemma push_same d s t : same_machine s t -> sim same_machine (push d s) (push d t).
Proof. unfold push. go H. Qed.
#[local] Hint Resolve pull_flags_same push_same : sims.
Lemma push_pc_same s t : same_machine s t -> sim same_machine (push_pc s) (push_pc t).
Proof. unfold push_pc. go H. Qed.
Lemma push_flags_same d s t : same_machine s t -> sim same_machine (push_flags d s) (push_flags d t).
Proof. unfold push_flags. go H. Qed.
Lemma add_same d s t : same_machine s t -> same_machine (add_with_carry d s) (add_with_carry d t).
Proof. unfold add_with_carry. go H. Qed.
Lemma subtract_same d s t : same_machine s t -> same_machine (subtract_with_carry d s) (subtract_with_carry d t).
Proof. unfold subtract_with_carry. go H. Qed.
#[local] Hint Resolve push_pc_same push_flags_same add_same subtract_same : sims.
Lemma asl_same a s t : same_machine s t -> sim eqsame (arithmetic_shift_left a s) (arithmetic_shift_left a t).
Proof. unfold arithmetic_shift_left. go H. Qed.
Lemma rol_same a s t : same_machine s t -> sim eqsame (rotate_left a s) (rotate_left a t).
Proof. unfold rotate_left. go H. Qed.
Lemma lsr_same a s t : same_machine s t -> sim eqsame (logical_shift_right a s) (logical_shift_right a t).
Proof. unfold logical_shift_right. go H. Qed.
Lemma ror_same a s t : same_machine s t -> sim eqsame (rotate_right a s) (rotate_right a t).
Proof. unfold rotate_right. go H. Qed.
Lemma dec_same a s t : same_machine s t -> sim eqsame (decrement a s) (decrement a t).
Proof. unfold decrement. go H. Qed.
Lemma inc_same a s t : same_machine s t -> sim eqsame (increment a s) (increment a t).
Proof. unfold increment. go H. Qed.
Lemma execute_irq_same b s t : same_machine s t -> sim same_machine (execute_irq b s) (execute_irq b t).
Proof. unfold execute_irq. go H. Qed.
#[local] Hint Resolve asl_same rol_same lsr_same ror_same dec_same inc_same execute_irq_same : sims.
Lemma check_irq_same s t : same_machine s t -> sim same_machine (check_irq s) (check_irq t).
Proof. intros H. unfold check_irq. rewrite (is_irq_same _ _ H). generalize (is_irq s). intros b. revert H. go H. Qed.
Lemma fetch_same s t : same_machine s t -> sim eqsame (fetch s) (fetch t).
Proof. unfold fetch. go H. Qed.
#[local] Hint Resolve check_irq_same fetch_same : sims.
Lemma shx_same a d s t : same_machine s t -> sim same_machine (shx a d s) (shx a d t).
Proof. unfold shx. go H. Qed.
Lemma call6502_same a s t : same_machine s t -> same_machine (call6502 a s) (call6502 a t).
Proof. unfold call6502. go H. Qed.
#[local] Hint Resolve shx_same call6502_same : sims.
Lemma call_player_d_same a s t : same_machine s t -> sim same_machine (call_player_d a s) (call_player_d a t).
Proof. unfold call_player_d. go H. Qed.
Lemma call_player_s_same s t : same_machine s t -> same_machine (call_player_s s) (call_player_s t).
Proof. unfold call_player_s. go H. Qed.
#[local] Hint Resolve call_player_d_same call_player_s_same : sims.

Lemma call6502_player_same s t : same_machine s t -> sim same_machine (call6502_player s) (call6502_player t).
Proof.
  intros H. unfold call6502_player. cbv zeta.
  assert (E : m_info t = m_info s) by exact (f_equal m_info (eq_sym H)). rewrite E. clear E.
  destruct (i_type (m_info s)); try (cbn [sim]; now apply call6502_same); [now apply call_player_d_same|cbn [sim]; now apply call_player_s_same|].
  revert H. go H. all: cbn [sim]; apply call6502_same; same_tac.
Qed.
Lemma handle_event_same s t : same_machine s t -> sim same_machine (handle_event s) (handle_event t).
Proof.
  intros H. unfold handle_event. eapply sim_bind with (R := same_machine).
  - revert H. cbv zeta. go H. all: try (eapply sim_bind; [apply call6502_player_same; same_tac|]; intros x y L; unsame L; cbn [sim]; same_tac).
  - clear s t H. intros s t H. cbv zeta. unsame H.
    match goal with |- context [pokey_check_irq ?c ?n (pp_basePokey ?p)] =>
      pose proof (pokey_check_irq_like c n _ _ (base_like _ _ K)) as [E1 L1] end.
    destruct (pokey_check_irq _ _ (pp_basePokey v14)) as [n1 b1], (pokey_check_irq _ _ (pp_basePokey pp')) as [n2 b2]. cbn [fst snd] in E1, L1. subst n2.
    pose proof (pokey_check_irq_like v0 n1 _ _ (extra_like _ _ K)) as [E2 L2].
    destruct (pokey_check_irq _ _ (pp_extraPokey v14)) as [n3 b3], (pokey_check_irq _ _ (pp_extraPokey pp')) as [n4 b4]. cbn [fst snd] in E2, L2. subst n4.
    cbn [sim]. same_tac.
Qed.
#[local] Hint Resolve call6502_player_same handle_event_same : sims.

Definition same_result (x y : first_result) : Prop :=
  match x, y with Done s, Done t => same_machine s t | Operand a s, Operand b t => b = a /\ same_machine s t | _, _ => False end.
Lemma fetch_word_same s t : same_machine s t -> sim eqsame (fetch_word s) (fetch_word t).
Proof. unfold fetch_word. go H. Qed.
#[local] Hint Resolve fetch_word_same : sims.
Lemma run_mode_same m s t : same_machine s t -> sim same_result (run_mode m s) (run_mode m t).
Proof.
  intros H. destruct m; unfold run_mode, branch_if, done, abs_indexed; revert H.
  all: go H; cbn [same_result].
  all: repeat match goal with |- _ /\ _ => split; [reflexivity|] end; try same_tac.
Qed.
Lemma take_branch_same s t : same_machine s t -> sim same_machine (take_branch s) (take_branch t).
Proof. unfold take_branch. go H. Qed.
#[local] Hint Resolve run_mode_same take_branch_same : sims.
Lemma run_operation_same o a s t : same_machine s t -> sim same_machine (run_operation o a s) (run_operation o a t).
Proof.
  intros H. destruct o; unfold run_operation; revert H.
  all: go H; try (cbn [sim]; first [apply add_same | apply subtract_same]; same_tac).
Qed.
#[local] Hint Resolve run_operation_same : sims.
Lemma execute_same s t : same_machine s t -> sim same_machine (execute s) (execute t).
Proof.
  intros H. unfold execute. eapply sim_bind; [apply fetch_same; exact H|]. clear s t H. intros [d s] [d' t] [E H]. cbn [fst snd] in E, H. subst d'.
  apply sim_bind_eq. intros n. eapply sim_bind; [apply run_mode_same with (t := add_cycles n t); unsame H; same_tac|].
  intros [x|a x] [y|b y] L; cbn [same_result] in L; try contradiction; [exact L|]. destruct L as [-> L]. now apply run_operation_same.
Qed.
Lemma poll_event_same s t : same_machine s t -> sim same_machine (poll_event s) (poll_event t).
Proof.
  intros H. unfold poll_event.
  assert (E : m_nextEventCycle t = m_nextEventCycle s) by exact (f_equal m_nextEventCycle (eq_sym H)).
  assert (E' : m_cycle t = m_cycle s) by exact (f_equal m_cycle (eq_sym H)). rewrite E, E'. destruct (_ <=? _); [|exact H].
  eapply sim_bind; [apply handle_event_same; exact H|]. intros x y L. now apply check_irq_same.
Qed.
Lemma cpu_do_frame_same n s t : same_machine s t -> sim same_machine (cpu_do_frame n s) (cpu_do_frame n t).
Proof.
  intros H. unfold cpu_do_frame. apply sim_loopZ with (R := same_machine); [|exact H]. clear s t H. intros s t H. unfold cpu_step.
  assert (E' : m_cycle t = m_cycle s) by exact (f_equal m_cycle (eq_sym H)). rewrite E'. destruct (_ <? n); [|exact H].
  eapply sim_bind; [apply poll_event_same; exact H|]. clear s t H E'. intros s t H. eapply sim_bind; [apply execute_same; exact H|]. intros x y L. exact L.
Qed.
Lemma do_6502_frame_same s t : same_machine s t -> sim same_machine (do_6502_frame s) (do_6502_frame t).
Proof.
  intros H. unfold do_6502_frame. cbv zeta. unsame H. eapply sim_bind; [apply cpu_do_frame_same; same_tac|].
  intros s t H. unsame H. cbn [sim]. match goal with |- same_machine ?x _ => idtac end. destruct (_ =? never); same_tac.
Qed.
Lemma do_frame_same s t : same_machine s t -> sim eqsame (do_frame s) (do_frame t).
Proof.
  intros H. unfold do_frame. cbv zeta. unsame H. eapply sim_bind; [apply pair_start_frame_like; exact K|]. intros p q L.
  eapply sim_bind; [apply do_6502_frame_same; same_tac|]. intros s t H. unsame H.
  eapply sim_bind; [apply pair_end_frame_like; eassumption|]. intros p' q' L'. split; [reflexivity|]. same_tac.
Qed.
Lemma frames_same n s t : same_machine s t -> sim same_machine (frames n s) (frames n t).
Proof.
  revert s t. induction n as [|n IH]; intros s t H; cbn [frames]; [exact H|].
  eapply sim_bind; [apply do_frame_same; exact H|]. intros [c s'] [c' t'] [_ L]. now apply IH.
Qed.

(* ---- starting a song ---- *)
Lemma init_frames_same n s t : same_machine s t -> sim eqsame (init_frames n s) (init_frames n t).
Proof.
  revert s t. induction n as [|n IH]; intros s t H; cbn [init_frames]; [split; [reflexivity|exact H]|].
  eapply sim_bind; [apply do_6502_frame_same; exact H|]. clear s t H. intros s t H.
  assert (E : m_pc t = m_pc s) by exact (f_equal m_pc (eq_sym H)). rewrite E. destruct (_ =? _); [split; [reflexivity|exact H]|now apply IH].
Qed.
Lemma do_6502_init_same pc a x y s t : same_machine s t -> sim eqsame (do_6502_init pc a x y s) (do_6502_init pc a x y t).
Proof. intros H. unfold do_6502_init. cbv zeta. apply init_frames_same. unsame H. same_tac. Qed.
Lemma then_init_same pc a x y m m' : sim eqsame m m' -> sim eqsame (then_init pc a x y m) (then_init pc a x y m').
Proof.
  intros H. unfold then_init. eapply sim_bind; [exact H|]. intros [b s] [b' t] [E L]. cbn [fst snd] in E, L. subst b'.
  destruct b; [now apply do_6502_init_same|split; [reflexivity|exact L]].
Qed.
Lemma api_mute_same m s t : same_machine s t -> same_machine (api_mute m s) (api_mute m t).
Proof. intros H. unfold api_mute. cbv zeta. unsame H. same_tac. Qed.
Lemma play_prepare_same song d s t : same_machine s t -> sim same_machine (play_prepare song d s) (play_prepare song d t).
Proof.
  intros H. unfold play_prepare, cpu_reset. cbv zeta. unsame H. eapply sim_bind; [apply pair_initialize_like|]. intros p q L. cbn [sim].
  apply api_mute_same. same_tac.
Qed.
Lemma play_init_same song s t : same_machine s t -> sim eqsame (play_init song s) (play_init song t).
Proof.
  intros H. unfold play_init. cbv zeta. assert (E : m_info t = m_info s) by exact (f_equal m_info (eq_sym H)). rewrite E. clear E.
  destruct (i_type (m_info s)).
  all: repeat match goal with
    | |- sim _ (do_6502_init _ _ _ _ _) _ => apply do_6502_init_same; exact H
    | |- sim _ (then_init _ _ _ _ _) _ => apply then_init_same
    | |- sim _ (bind ?x _) (bind ?x _) => apply sim_bind_eq; intros
    | |- sim _ (bind (then_init _ _ _ _ _) _) _ =>
      eapply sim_bind; [apply then_init_same, do_6502_init_same; exact H|]; intros [b x] [b' y] [E L]; cbn [fst snd] in E, L; subst b'; destruct b;
      (split; [reflexivity|]; cbn [snd]; first [exact L | unsame L; same_tac])
    | |- sim _ (Ok _) (Ok _) => split; [reflexivity|]; unsame H; same_tac
    end.
Qed.
Lemma play_song_same song d s t : same_machine s t -> sim eqsame (api_play_song song d s) (api_play_song song d t).
Proof.
  intros H. unfold api_play_song. assert (E : m_info t = m_info s) by exact (f_equal m_info (eq_sym H)). rewrite E. clear E.
  destruct (_ || _); [split; [reflexivity|exact H]|].
  eapply sim_bind; [apply play_prepare_same; exact H|]. clear s t H. intros s t H. eapply sim_bind; [apply play_init_same; exact H|].
  clear s t H. intros [b s] [b' t] [E H]. cbn [fst snd] in E, H. subst b'. split; [reflexivity|]. cbn [snd]. destruct b; [|exact H].
  apply (api_mute_same 0) in H. unsame H. same_tac.
Qed.

(* ---- the calls that make frames ---- *)
Lemma same_refl s : same_machine s s. Proof. reflexivity. Qed.
Lemma same_trans s t u : same_machine s t -> same_machine t u -> same_machine s u.
Proof. unfold same_machine. congruence. Qed.
Lemma same_sym s t : same_machine s t -> same_machine t s.
Proof. unfold same_machine. congruence. Qed.
Lemma later_same n s t u : frames_later n s t -> same_machine t u -> frames_later n s u.
Proof.
  intros H K. destruct H as [s t H | n s t c t1 v H E L].
  - apply no_frames. eapply same_trans; eassumption.
  - eapply one_more_frame; [exact H|exact E|]. eapply same_trans; eassumption.
Qed.
Lemma later_frame n s t c u : frames_later n s t -> do_frame t = Ok (c, u) -> frames_later (S n) s u.
Proof. intros H E. eapply one_more_frame; [exact H|exact E|apply same_refl]. Qed.
Lemma later_trans n m s t u : frames_later n s t -> frames_later m t u -> frames_later (m + n) s u.
Proof.
  intros H1 H2. revert H1. induction H2 as [t u H | m t v c v1 u H2 IH E L]; intros H1; cbn [Nat.add].
  - eapply later_same; eassumption.
  - eapply one_more_frame; [apply IH; exact H1|exact E|exact L].
Qed.
Lemma sim_ok {A B} (R : A -> B -> Prop) x y a b : sim R x y -> x = Ok a -> y = Ok b -> R a b.
Proof. intros H -> ->. exact H. Qed.
Lemma later_determined n s t u v : same_machine s t -> frames_later n s u -> frames_later n t v -> same_machine u v.
Proof.
  intros H H1. revert t v H. induction H1 as [s u K | n s w c w1 u H1 IH E L]; intros t v H H2.
  - inversion H2; subst. apply same_trans with t; [|assumption]. apply same_trans with s; [now apply same_sym|exact H].
  - inversion H2 as [|n' t' x c' x1 v' H3 E' L']; subst. specialize (IH _ _ H H3).
    pose proof (sim_ok _ _ _ _ _ (do_frame_same _ _ IH) E E') as [_ M]. cbn [snd] in M.
    apply same_trans with w1; [now apply same_sym|]. apply same_trans with x1; assumption.
Qed.
Lemma frames_snoc n s t : frames n s = Ok t -> forall m u, frames_later m u s -> frames_later (n + m) u t.
Proof.
  revert s. induction n as [|n IH]; intros s E m u H; cbn [frames] in E.
  - injection E as <-. exact H.
  - destruct (do_frame s) as [[c s1]| | |] eqn:D; cbn [bind] in E; try discriminate E.
    pose proof (IH s1 E (S m) u (later_frame _ _ _ _ _ H D)) as R. replace (S n + m)%nat with (n + S m)%nat by lia. exact R.
Qed.
Lemma frames_are_later n s t : frames n s = Ok t -> frames_later n s t.
Proof. intros E. replace n with (n + 0)%nat by lia. eapply frames_snoc; [exact E|]. apply no_frames, same_refl. Qed.

Lemma next_sample_like i p v q : next_sample i p = Ok (v, q) -> likep p q.
Proof.
  unfold next_sample. intros E. repeat (match type of E with bind ?x _ = _ => destruct x end; cbn [bind] in E; try discriminate E).
  match type of E with Ok (_, ?x) = _ => assert (q = x) as -> by congruence end. reflexivity.
Qed.
Lemma store_sample_like b o i f p b' o' q : store_sample b o i f p = Ok (b', o', q) -> likep p q.
Proof.
  unfold store_sample. intros E. destruct (next_sample i p) as [[v r]| | |] eqn:N; cbn [bind] in E; try discriminate E. cbv zeta in E.
  match type of E with bind ?x _ = _ => destruct x end; cbn [bind] in E; try discriminate E. assert (q = r) as -> by congruence. exact (next_sample_like _ _ _ _ N).
Qed.
Lemma likepp_trans a b c : likepp a b -> likepp b c -> likepp a c. Proof. unfold likepp. congruence. Qed.
Lemma likepp_base pp p : likep (pp_basePokey pp) p -> likepp pp (set_pp_basePokey p pp).
Proof. intros H. apply likepp_iff. split; [reflexivity|]. split; [exact H|reflexivity]. Qed.
Lemma likepp_extra pp p : likep (pp_extraPokey pp) p -> likepp pp (set_pp_extraPokey p pp).
Proof. intros H. apply likepp_iff. split; [reflexivity|]. split; [reflexivity|exact H]. Qed.
Lemma generate_block_like f i b o pp b' o' pp' : generate_block f i (b, o, pp) = Ok (b', o', pp') -> likepp pp pp'.
Proof.
  unfold generate_block. intros E. destruct (store_sample b o i f (pp_basePokey pp)) as [[[b1 o1] p1]| | |] eqn:S1; cbn [bind] in E; try discriminate E.
  cbv zeta in E. apply store_sample_like in S1. pose proof (likepp_base _ _ S1) as L. destruct (_ =? 0); [assert (pp' = set_pp_basePokey p1 pp) as -> by congruence; exact L|].
  match type of E with bind ?x _ = _ => destruct x as [[[b2 o2] p2]| | |] eqn:S2 end; cbn [bind] in E; try discriminate E.
  assert (pp' = set_pp_extraPokey p2 (set_pp_basePokey p1 pp)) as -> by congruence. apply store_sample_like in S2. eapply likepp_trans; [exact L|]. now apply likepp_extra.
Qed.
Lemma generate_blocks_like n f i b o pp b' o' pp' : generate_blocks n f i (b, o, pp) = Ok (b', o', pp') -> likepp pp pp'.
Proof.
  revert i b o pp. induction n as [|n IH]; intros i b o pp E; cbn [generate_blocks] in E; [assert (pp' = pp) as -> by congruence; apply likepp_refl|].
  destruct (generate_block f i (b, o, pp)) as [[[b1 o1] p1]| | |] eqn:G; cbn [bind] in E; try discriminate E.
  eapply likepp_trans; [exact (generate_block_like _ _ _ _ _ _ _ _ G)|exact (IH _ _ _ _ E)].
Qed.
Lemma pair_generate_like b o n f pp k b' pp' : pair_generate b o n f pp = Ok (k, b', pp') -> likepp pp pp'.
Proof.
  unfold pair_generate. cbv zeta. destruct (0 <? _); intros E; [|assert (pp' = pp) as -> by congruence; apply likepp_refl].
  match type of E with bind ?x _ = _ => destruct x as [[[b1 o1] p1]| | |] eqn:G end; cbn [bind] in E; try discriminate E.
  apply generate_blocks_like in G.
  match type of E with Ok (_, _, ?x) = _ => assert (pp' = x) as -> by congruence end. eapply likepp_trans; [exact G|]. destruct (_ =? _); reflexivity.
Qed.

(* a loop that ends keeps what each iteration keeps *)
Lemma loopZ_keeps {S R} (step : S -> outcome (S + R)) (I : S -> Prop) (P : R -> Prop) n s r :
  (forall s x, I s -> step s = Ok x -> match x with inl s' => I s' | inr r => P r end) -> I s -> loopZ n step s = Ok r -> P r.
Proof.
  intros H Hs. rewrite loopZ_loop. generalize (Nat.pred (Pos.to_nat (Z.to_pos n))). clear n. intros n. revert s Hs.
  induction n as [|n IH]; intros s Hs E; cbn [loop] in E; destruct (step s) as [x| | |] eqn:D; cbn [bind] in E; try discriminate E; specialize (H s x Hs D) as K; destruct x as [s'|r'].
  - discriminate E.
  - assert (r' = r) as <- by congruence. exact K.
  - exact (IH s' K E).
  - assert (r' = r) as <- by congruence. exact K.
Qed.
Lemma same_silence s v : same_machine s (set_m_silenceCyclesCounter v s). Proof. reflexivity. Qed.
Lemma same_blocks s v : same_machine s (set_m_blocksPlayed v s). Proof. reflexivity. Qed.

Lemma generate_iter_frames s off lim sh f blk buf t x m : frames_later m s t -> generate_iter off lim sh f (blk, buf, t) = Ok x ->
  match x with inl y => exists m, frames_later m s (snd y) | inr y => exists m, frames_later m s (snd y) end.
Proof.
  intros L E. unfold generate_iter in E.
  destruct (pair_generate _ _ _ _ _) as [[[bl bu] pp]| | |] eqn:P; cbn [bind] in E; try discriminate E. apply pair_generate_like in P.
  destruct (chk _) as [pl| | |]; cbn [bind] in E; try discriminate E. cbv zeta in E.
  assert (L1 : frames_later m s (set_m_blocksPlayed pl (set_m_pokeys pp t))).
  { eapply later_same; [exact L|]. eapply same_trans; [|apply same_blocks]. destruct t. apply same_mk. exact P. }
  set (t1 := set_m_blocksPlayed pl (set_m_pokeys pp t)) in *. clearbody t1.
  unfold leave, continue_ in E. destruct (_ <=? _). { assert (x = inr (blk + bl, bu, t1)) as -> by congruence. exists m. exact L1. }
  destruct (do_frame t1) as [[c u]| | |] eqn:D; cbn [bind] in E; try discriminate E. pose proof (later_frame _ _ _ _ _ L1 D) as L2.
  assert (L3 : forall v, frames_later (S m) s (set_m_silenceCyclesCounter v u)) by (intros v; eapply later_same; [exact L2|apply same_silence]).
  destruct (0 <? _); [destruct (_ && _); [destruct (_ <=? 0)|]|].
  all: match type of E with Ok ?y = _ => assert (x = y) as -> by congruence end; exists (S m); cbn [snd]; first [exact L2 | apply L3].
Qed.
Lemma generate_loop_frames fuel off lim sh f buffer s r : loopZ fuel (generate_iter off lim sh f) (0, buffer, s) = Ok r -> exists m, frames_later m s (snd r).
Proof.
  intros G. apply (loopZ_keeps _ (fun x => exists m, frames_later m s (snd x)) (fun x => exists m, frames_later m s (snd x))) in G; [exact G| |].
  - clear. intros [[blk buf] t] x [m L] E. cbn [snd] in L. exact (generate_iter_frames _ _ _ _ _ _ _ _ _ _ L E).
  - exists 0%nat. apply no_frames, same_refl.
Qed.
Lemma generate_frames buffer n f s k buffer' s' : api_generate buffer n f s = Ok (k, buffer', s') -> exists m, frames_later m s s'.
Proof.
  unfold api_generate, generate_at. destruct ((0 <? m_silenceCycles s) && (m_silenceCyclesCounter s <=? 0)).
  { intros E. assert (s' = s) as -> by congruence. exists 0%nat. apply no_frames, same_refl. }
  cbv zeta. generalize generate_fuel. intros fuel E. apply bind_ok in E. destruct E as (lim & _ & E). apply bind_ok in E. destruct E as ([[b1 o1] s1] & G & E).
  apply generate_loop_frames in G. cbn [snd] in G. assert (s1 = s') as <- by congruence. exact G.
Qed.
Lemma seek_loop_frames block s s1 : loopZ seek_fuel (seek_step block) s = Ok s1 -> exists m, frames_later m s s1.
Proof.
  generalize seek_fuel. intros fuel G. apply (loopZ_keeps _ (fun x => exists m, frames_later m s x) (fun x => exists m, frames_later m s x)) in G; [exact G| |].
  2: { exists 0%nat. apply no_frames, same_refl. }
  clear. intros t x [m L] E. unfold seek_step in E. destruct (chk _) as [e| | |]; cbn [bind] in E; try discriminate E. destruct (e <? block).
  - destruct (do_frame _) as [[c u]| | |] eqn:D; cbn [bind] in E; try discriminate E. unfold continue_ in E. injection E as <-. exists (S m).
    refine (later_frame _ _ _ _ _ _ D). eapply later_same; [exact L|apply same_blocks].
  - unfold leave in E. injection E as <-. exists m. exact L.
Qed.
Lemma seek_end v w s1 : same_machine s1 (set_m_blocksPlayed v (set_m_pokeys (set_pp_readySamplesStart w (m_pokeys s1)) s1)).
Proof. destruct s1. apply same_mk. reflexivity. Qed.
Lemma seek_forward_frames block s b s' : api_blocks_played s <= block -> api_seek_sample block s = Ok (b, s') -> exists m, frames_later m s s'.
Proof.
  unfold api_blocks_played. intros H E. unfold api_seek_sample in E. destruct (block <? m_blocksPlayed s) eqn:C; [lia|].
  apply bind_ok in E. destruct E as ([b0 s0] & E0 & E). assert (b0 = true) as -> by congruence. assert (s0 = s) as -> by congruence. cbv iota in E.
  apply bind_ok in E. destruct E as (s1 & G & E). cbv zeta in E. destruct (seek_loop_frames _ _ _ G) as [m L]. exists m.
  match type of E with Ok (_, ?x) = _ => assert (s' = x) as -> by congruence end. eapply later_same; [exact L|]. apply seek_end.
Qed.
Lemma seek_back_frames block s s' : block < api_blocks_played s -> api_seek_sample block s = Ok (true, s') ->
  exists s0 m, api_play_song (m_currentSong s) (m_currentDuration s) s = Ok (true, s0) /\ frames_later m s0 s'.
Proof.
  unfold api_blocks_played. intros H E. unfold api_seek_sample in E. destruct (block <? m_blocksPlayed s) eqn:C; [|lia].
  apply bind_ok in E. destruct E as ([b s0] & E0 & E). destruct b; [|discriminate E].
  apply bind_ok in E. destruct E as (s1 & G & E). cbv zeta in E. destruct (seek_loop_frames _ _ _ G) as [m L]. exists s0, m. split; [exact E0|].
  match type of E with Ok (_, ?x) = _ => assert (s' = x) as -> by congruence end. eapply later_same; [exact L|]. apply seek_end.
Qed.
Lemma serve_frames r s s' : serve r s = Ok s' -> exists m, frames_later m s s'.
Proof.
  destruct r as [buffer n f|block|rate|sec]; cbn [serve]; intros E.
  - destruct (api_generate buffer n f s) as [[[k b] u]| | |] eqn:G; cbn [bind] in E; try discriminate E. injection E as <-. exact (generate_frames _ _ _ _ _ _ _ G).
  - destruct (block <? api_blocks_played s) eqn:C; [discriminate E|]. destruct (api_seek_sample block s) as [[b u]| | |] eqn:G; cbn [bind] in E; try discriminate E.
    injection E as <-. apply (seek_forward_frames block s b); [lia|exact G].
  - injection E as <-. exists 0%nat. apply no_frames. reflexivity.
  - unfold api_detect_silence in E. destruct (chk _); cbn [bind] in E; try discriminate E. injection E as <-. exists 0%nat. apply no_frames. reflexivity.
Qed.
Lemma serve_all_frames l s s' : serve_all l s = Ok s' -> exists m, frames_later m s s'.
Proof.
  revert s. induction l as [|r l IH]; intros s E; cbn [serve_all] in E.
  - injection E as <-. exists 0%nat. apply no_frames. reflexivity.
  - destruct (serve r s) as [s1| | |] eqn:D; cbn [bind] in E; try discriminate E. destruct (serve_frames _ _ _ D) as [m1 L1]. destruct (IH _ E) as [m2 L2].
    exists (m2 + m1)%nat. eapply later_trans; eassumption.
Qed.

(* what an application sees of the machine *)
Lemma same_observed s t : same_machine s t -> m_memory s = m_memory t /\ m_pc s = m_pc t /\ m_a s = m_a t /\ m_x s = m_x t /\ m_y s = m_y t /\ m_s s = m_s t /\
  (forall ch, api_channel_volume ch s = api_channel_volume ch t) /\ (forall a, cpu_peek s a = cpu_peek t a).
Proof.
  intros H. split; [exact (f_equal m_memory H)|]. split; [exact (f_equal m_pc H)|]. split; [exact (f_equal m_a H)|]. split; [exact (f_equal m_x H)|].
  split; [exact (f_equal m_y H)|]. split; [exact (f_equal m_s H)|]. split.
  - intros ch. transitivity (api_channel_volume ch (emulated s)); [unfold api_channel_volume; destruct (_ =? 0); reflexivity|].
    rewrite H. unfold api_channel_volume; destruct (_ =? 0); reflexivity.
  - intros a. symmetry. now apply cpu_peek_same.
Qed.
Lemma rates_same song d r1 r2 s b1 s1 b2 s2 : api_play_song song d (api_set_sample_rate r1 s) = Ok (b1, s1) -> api_play_song song d (api_set_sample_rate r2 s) = Ok (b2, s2) ->
  b1 = b2 /\ same_machine s1 s2.
Proof.
  intros E1 E2. pose proof (sim_ok _ _ _ _ _ (play_song_same song d (api_set_sample_rate r1 s) (api_set_sample_rate r2 s) eq_refl) E1 E2) as [E L]. cbn [fst snd] in E, L. split; [congruence|exact L].
Qed.
