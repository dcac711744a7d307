(* A while loop: [step] does one iteration and either continues or leaves the loop with a result.
   Fuel bounds the number of iterations after the first; statements exclude OutOfFuel. *)
From Verif Require Import Base BaseFacts.

Fixpoint loop {S R : Type} (fuel : nat) (step : S -> outcome (S + R)) (s : S) : outcome R :=
  x <- step s ;;
  match x with
  | inr r => Ok r
  | inl s' => match fuel with O => OutOfFuel | Datatypes.S fuel => loop fuel step s' end
  end.

Definition continue_ {S R} (s : S) : outcome (S + R) := Ok (inl s).
Definition leave {S R} (r : R) : outcome (S + R) := Ok (inr r).

(* Weakest precondition with some undefined behaviours (B) and divergence (F) permitted *)
Definition wpg {A} (B : ub_reason -> Prop) (F : Prop) (m : outcome A) (P : A -> Prop) : Prop :=
  match m with Ok a => P a | Fail => True | UB r => B r | OutOfFuel => F end.

Lemma wpg_bind {A C} B F (m : outcome A) (f : A -> outcome C) (P : C -> Prop) :
  wpg B F m (fun a => wpg B F (f a) P) -> wpg B F (bind m f) P.
Proof. destruct m; cbn [wpg bind]; auto. Qed.

Lemma wpg_mono {A} B F (m : outcome A) (P Q : A -> Prop) : wpg B F m P -> (forall a, P a -> Q a) -> wpg B F m Q.
Proof. destruct m; cbn [wpg]; auto. Qed.

Lemma wpg_weaken {A} (B B' : ub_reason -> Prop) (F F' : Prop) (m : outcome A) (P : A -> Prop) :
  (forall r, B r -> B' r) -> (F -> F') -> wpg B F m P -> wpg B' F' m P.
Proof. destruct m; cbn [wpg]; auto. Qed.

Lemma wpg_ok {A} B F (m : outcome A) (P : A -> Prop) a : wpg B F m P -> m = Ok a -> P a.
Proof. intros H ->. exact H. Qed.

Lemma wp_wpg {A} B F (m : outcome A) (P : A -> Prop) : wp m P -> wpg B F m P.
Proof. destruct m; cbn [wp wpg]; auto; contradiction. Qed.

Lemma wpg_wp {A} (m : outcome A) (P : A -> Prop) : wpg (fun _ => False) False m P -> wp m P.
Proof. destruct m; cbn [wp wpg]; auto. Qed.

Lemma wpg_get B F l i (P : Z -> Prop) : (0 <= i < len l -> P (at_ l i)) -> (0 <= i < len l \/ B UbRead) -> wpg B F (get l i) P.
Proof.
  intros H1 H2. destruct (Z_le_gt_dec 0 i) as [C|C]; [destruct (Z_lt_ge_dec i (len l)) as [D|D]|].
  - rewrite get_ok by lia. apply H1. lia.
  - rewrite get_ub by lia. cbn [wpg]. destruct H2; [lia|assumption].
  - rewrite get_ub by lia. cbn [wpg]. destruct H2; [lia|assumption].
Qed.

Lemma wpg_set_nth {A} B F (l : list A) i v (P : list A -> Prop) : 0 <= i < len l -> P (upd l (Z.to_nat i) v) -> wpg B F (set_nth l i v) P.
Proof. intros H1 H2. now apply wp_wpg, wp_set_nth. Qed.

Lemma wpg_chk B F v (P : Z -> Prop) : (int_min <= v <= int_max -> P v) -> (int_min <= v <= int_max \/ B UbOverflow) -> wpg B F (chk v) P.
Proof.
  intros H1 H2. unfold chk, is_int. destruct ((int_min <=? v) && (v <=? int_max)) eqn:E; cbn [wpg]; [apply H1; lia|].
  destruct H2; [lia|assumption].
Qed.

Lemma loop_wpg {S R} B (F : Prop) (step : S -> outcome (S + R)) (I : S -> Prop) (m : S -> Z) (P : R -> Prop) :
  (forall s, I s -> 0 <= m s) ->
  (forall s, I s -> wpg B F (step s) (fun x => match x with inl s' => I s' /\ (F \/ m s' < m s) | inr r => P r end)) ->
  forall fuel s, I s -> (F \/ m s <= Z.of_nat fuel) -> wpg B F (loop fuel step s) P.
Proof.
  intros Hm Hstep. induction fuel as [|fuel IH]; intros s Hs Hf; cbn [loop]; apply wpg_bind.
  - pose proof (Hm s Hs). eapply wpg_mono; [apply Hstep; exact Hs|]. intros [s'|r] H'; [|exact H'].
    destruct H' as [H1 H2]. pose proof (Hm s' H1). cbn [wpg]. destruct Hf, H2; auto; lia.
  - eapply wpg_mono; [apply Hstep; exact Hs|]. intros [s'|r] H'; [|exact H']. destruct H' as [H1 H2].
    apply IH; [exact H1|]. destruct Hf, H2; auto; right; lia.
Qed.

(* a loop that never leaves a set of states *)
Lemma loop_diverges {S R} (step : S -> outcome (S + R)) (I : S -> Prop) :
  (forall s, I s -> exists s', step s = Ok (inl s') /\ I s') ->
  forall fuel s, I s -> loop fuel step s = OutOfFuel.
Proof.
  intros H. induction fuel as [|fuel IH]; intros s Hs; destruct (H s Hs) as (s' & E & Hs'); cbn [loop]; rewrite E; cbn [bind]; auto.
Qed.

(* ---- fuel independence ---- *)
(* the result with less fuel is the same unless the fuel ran out *)
Definition fle {A} (a b : outcome A) : Prop := a = OutOfFuel \/ a = b.

Lemma fle_refl {A} (a : outcome A) : fle a a.
Proof. right. reflexivity. Qed.

Lemma fle_bind {A C} (a b : outcome A) (f g : A -> outcome C) :
  fle a b -> (forall x, fle (f x) (g x)) -> fle (bind a f) (bind b g).
Proof.
  intros [-> | ->] H; [left; reflexivity|]. destruct b; cbn [bind]; try apply fle_refl. apply H.
Qed.

Lemma loop_fle {S R} (f g : S -> outcome (S + R)) : (forall s, fle (f s) (g s)) ->
  forall n m, (n <= m)%nat -> forall s, fle (loop n f s) (loop m g s).
Proof.
  intros H. induction n as [|n IH]; intros m Hm s.
  - assert (E : loop m g s = bind (g s) (fun x => match x with inl s' => match m with O => OutOfFuel | Datatypes.S k => loop k g s' end | inr r => Ok r end))
      by (destruct m; reflexivity).
    rewrite E. cbn [loop]. apply fle_bind; [apply H|]. intros [s'|r]; [left; reflexivity|apply fle_refl].
  - destruct m as [|m]; [lia|]. cbn [loop]. apply fle_bind; [apply H|]. intros [s'|r]; [apply IH; lia|apply fle_refl].
Qed.

(* ---- loops with binary fuel ----
   The same loop with the iteration bound written in binary, so that a generous bound costs nothing to
   write down or to execute.  [iterP p step s] does at most p iterations. *)
Fixpoint iterP {S R : Type} (p : positive) (step : S -> outcome (S + R)) (s : S) : outcome (S + R) :=
  match p with
  | xH => step s
  | xO q => x <- iterP q step s ;; match x with inl s' => iterP q step s' | inr r => Ok (inr r) end
  | xI q => x <- step s ;;
            match x with
            | inl s1 => y <- iterP q step s1 ;; match y with inl s2 => iterP q step s2 | inr r => Ok (inr r) end
            | inr r => Ok (inr r)
            end
  end.

Definition loopZ {S R : Type} (n : Z) (step : S -> outcome (S + R)) (s : S) : outcome R :=
  x <- iterP (Z.to_pos n) step s ;;
  match x with inl _ => OutOfFuel | inr r => Ok r end.

Fixpoint iterN {S R : Type} (n : nat) (step : S -> outcome (S + R)) (s : S) : outcome (S + R) :=
  match n with
  | O => Ok (inl s)
  | Datatypes.S k => x <- step s ;; match x with inl s' => iterN k step s' | inr r => Ok (inr r) end
  end.

Lemma iterN_plus {S R} (step : S -> outcome (S + R)) a b s :
  iterN (a + b) step s = bind (iterN a step s) (fun x => match x with inl s' => iterN b step s' | inr r => Ok (inr r) end).
Proof.
  revert s. induction a as [|a IH]; intros s; [reflexivity|]. cbn [iterN Nat.add].
  destruct (step s) as [[s'|r]| | |]; cbn [bind]; auto.
Qed.

Lemma iterP_iterN {S R} (step : S -> outcome (S + R)) p s : iterP p step s = iterN (Pos.to_nat p) step s.
Proof.
  revert s. induction p as [q IH|q IH|]; intros s.
  - rewrite Pos2Nat.inj_xI. replace (2 * Pos.to_nat q)%nat with (Pos.to_nat q + Pos.to_nat q)%nat by lia.
    cbn [iterP iterN]. destruct (step s) as [[s'|r]| | |]; cbn [bind]; auto. rewrite iterN_plus, IH.
    destruct (iterN (Pos.to_nat q) step s') as [[s2|r]| | |]; cbn [bind]; auto.
  - rewrite Pos2Nat.inj_xO. replace (2 * Pos.to_nat q)%nat with (Pos.to_nat q + Pos.to_nat q)%nat by lia.
    cbn [iterP]. rewrite iterN_plus, IH. destruct (iterN (Pos.to_nat q) step s) as [[s2|r]| | |]; cbn [bind]; auto.
  - cbn [iterP iterN Pos.to_nat]. change (Pos.to_nat 1) with 1%nat. cbn [iterN].
    destruct (step s) as [[s2|r]| | |]; reflexivity.
Qed.

Lemma loop_iterN {S R} (step : S -> outcome (S + R)) n s :
  loop n step s = bind (iterN (Datatypes.S n) step s) (fun x => match x with inl _ => OutOfFuel | inr r => Ok r end).
Proof.
  revert s. induction n as [|n IH]; intros s.
  - cbn [loop iterN]. destruct (step s) as [[s'|r]| | |]; reflexivity.
  - change (loop (Datatypes.S n) step s) with (bind (step s) (fun x => match x with inr r => Ok r | inl s' => loop n step s' end)).
    change (iterN (Datatypes.S (Datatypes.S n)) step s)
      with (bind (step s) (fun x => match x with inl s' => iterN (Datatypes.S n) step s' | inr r => Ok (inr r) end)).
    destruct (step s) as [[s'|r]| | |]; cbn [bind]; auto.
Qed.

Lemma loopZ_loop {S R} (n : Z) (step : S -> outcome (S + R)) s : loopZ n step s = loop (Nat.pred (Pos.to_nat (Z.to_pos n))) step s.
Proof.
  unfold loopZ. rewrite loop_iterN, iterP_iterN.
  replace (Datatypes.S (Nat.pred (Pos.to_nat (Z.to_pos n)))) with (Pos.to_nat (Z.to_pos n)) by lia. reflexivity.
Qed.

(* the measure may be as large as the number of iterations allowed, minus one *)
Lemma loopZ_wpg {S R} B (F : Prop) (step : S -> outcome (S + R)) (I : S -> Prop) (m : S -> Z) (P : R -> Prop) :
  (forall s, I s -> 0 <= m s) ->
  (forall s, I s -> wpg B F (step s) (fun x => match x with inl s' => I s' /\ (F \/ m s' < m s) | inr r => P r end)) ->
  forall n s, I s -> (F \/ m s < n) -> wpg B F (loopZ n step s) P.
Proof.
  intros Hm Hs n s HI Hf. rewrite loopZ_loop. eapply loop_wpg; try eassumption. destruct Hf as [H|H]; [left; exact H|right].
  specialize (Hm s HI). lia.
Qed.
