(* The output window: what each writer function emits and where. *)
From Coq Require Import String.
From Verif Require Import Base BaseFacts InfoModel Resources WriterModel SapSpec.

(* array a with the bytes l stored at index i *)
Definition splice (a : list Z) (i : Z) (l : list Z) : list Z :=
  firstn (Z.to_nat i) a ++ l ++ skipn (Z.to_nat (i + len l)) a.

Definition put (w : wstate) (l : list Z) : wstate :=
  mkW (splice (w_out w) (w_off w) l) (w_off w + len l) (w_end w).

(* w' results from w by stores inside the window of w *)
Record stays (w w' : wstate) : Prop := {
  st_wf : wf w';
  st_end : w_end w' = w_end w;
  st_off : w_off w <= w_off w';
  st_len : len (w_out w') = len (w_out w);
  st_before : firstn (Z.to_nat (w_off w)) (w_out w') = firstn (Z.to_nat (w_off w)) (w_out w);
  st_after : skipn (Z.to_nat (w_end w)) (w_out w') = skipn (Z.to_nat (w_end w)) (w_out w)
}.

Lemma stays_refl w : wf w -> stays w w.
Proof. intros H. constructor; (reflexivity || lia || exact H). Qed.

Lemma firstn_le_eq {A} (l k : list A) n m : (n <= m)%nat -> firstn m l = firstn m k -> firstn n l = firstn n k.
Proof.
  intros H E. rewrite <- (Nat.min_l n m H). rewrite <- !firstn_firstn. now rewrite E.
Qed.

Lemma stays_trans w1 w2 w3 : stays w1 w2 -> stays w2 w3 -> stays w1 w3.
Proof.
  intros [] []. constructor; try assumption; try congruence; try lia.
  - transitivity (firstn (Z.to_nat (w_off w1)) (w_out w2)); [|assumption].
    eapply firstn_le_eq; [|eassumption]. lia.
Qed.

Lemma len_firstn {A} (l : list A) i : 0 <= i <= len l -> len (firstn (Z.to_nat i) l) = i.
Proof. intros H. unfold len in *. rewrite firstn_length. lia. Qed.

Lemma len_skipn {A} (l : list A) i : 0 <= i <= len l -> len (skipn (Z.to_nat i) l) = len l - i.
Proof. intros H. unfold len in *. rewrite skipn_length. lia. Qed.

Lemma len_splice a i l : 0 <= i -> i + len l <= len a -> len (splice a i l) = len a.
Proof.
  intros H1 H2. pose proof (len_nonneg l). unfold splice.
  rewrite !len_app, len_firstn, len_skipn; lia.
Qed.

Lemma splice_nil a i : 0 <= i -> splice a i [] = a.
Proof. intros H. unfold splice. cbn [app]. rewrite len_nil, Z.add_0_r. apply firstn_skipn. Qed.

Lemma firstn_app_exact {A} (l k : list A) n : n = length l -> firstn n (l ++ k) = l.
Proof. intros ->. rewrite firstn_app, firstn_all, Nat.sub_diag. cbn [firstn]. apply app_nil_r. Qed.

Lemma skipn_app_exact {A} (l k : list A) n : n = length l -> skipn n (l ++ k) = k.
Proof. intros ->. rewrite skipn_app, skipn_all, Nat.sub_diag. reflexivity. Qed.

Lemma splice_splice a i l k : 0 <= i -> i + len l + len k <= len a ->
  splice (splice a i l) (i + len l) k = splice a i (l ++ k).
Proof.
  intros H1 H2. pose proof (len_nonneg l). pose proof (len_nonneg k). unfold splice at 1.
  assert (E1 : firstn (Z.to_nat (i + len l)) (splice a i l) = firstn (Z.to_nat i) a ++ l).
  { unfold splice. rewrite app_assoc. apply firstn_app_exact.
    rewrite app_length, firstn_length. unfold len in *. lia. }
  assert (E2 : skipn (Z.to_nat (i + len l + len k)) (splice a i l) = skipn (Z.to_nat (i + len l + len k)) a).
  { replace (Z.to_nat (i + len l + len k)) with (Z.to_nat (i + len l) + Z.to_nat (len k))%nat by lia.
    rewrite <- !skipn_skipn_plus. f_equal. unfold splice. rewrite app_assoc. apply skipn_app_exact.
    rewrite app_length, firstn_length. unfold len in *. lia. }
  rewrite E1, E2. unfold splice. rewrite len_app, Z.add_assoc, !app_assoc. reflexivity.
Qed.

Lemma put_put w l k : wf w -> w_off w + len l + len k <= w_end w -> put (put w l) k = put w (l ++ k).
Proof.
  intros [H1 H2] H. unfold put. cbn [w_out w_off w_end]. rewrite splice_splice by lia.
  rewrite len_app. f_equal. lia.
Qed.

Lemma put_nil w : wf w -> put w [] = w.
Proof.
  intros [H _]. unfold put. rewrite splice_nil by lia. rewrite len_nil, Z.add_0_r. now destruct w.
Qed.

Lemma wf_put w l : wf w -> w_off w + len l <= w_end w -> wf (put w l).
Proof.
  intros [H1 H2] H. pose proof (len_nonneg l). unfold wf, put; cbn [w_out w_off w_end].
  rewrite len_splice; lia.
Qed.

Lemma stays_put w l : wf w -> w_off w + len l <= w_end w -> stays w (put w l).
Proof.
  intros Hw H. pose proof (len_nonneg l). pose proof Hw as [H1 H2].
  constructor; [now apply wf_put|reflexivity|cbn [put w_off]; lia|..]; cbn [put w_out].
  - apply len_splice; lia.
  - unfold splice. apply firstn_app_exact. rewrite firstn_length. unfold len in *. lia.
  - replace (Z.to_nat (w_end w)) with (Z.to_nat (w_off w + len l) + Z.to_nat (w_end w - (w_off w + len l)))%nat by lia.
    rewrite <- !skipn_skipn_plus. f_equal. unfold splice. rewrite app_assoc. apply skipn_app_exact.
    rewrite app_length, firstn_length. unfold len in *. lia.
Qed.

(* the bytes written between two positions *)
Lemma slice_splice a i l : 0 <= i -> i + len l <= len a -> slice (splice a i l) i (i + len l) = l.
Proof.
  intros H1 H2. unfold slice, splice. rewrite skipn_app_exact.
  - replace (i + len l - i) with (len l) by lia. apply firstn_app_exact. unfold len; lia.
  - rewrite firstn_length. unfold len in *. lia.
Qed.

Lemma written_put w l : wf w -> w_off w + len l <= w_end w -> written w (put w l) = l.
Proof. intros [H1 H2] H. unfold written, put; cbn [w_out w_off]. apply slice_splice; lia. Qed.

(* f stores exactly the bytes l if they fit, and otherwise reports failure and stays in the window *)
Definition emits (f : wr) (l : list Z) : Prop :=
  forall w, wf w ->
    (w_off w + len l <= w_end w -> f w = Ok (true, put w l))
    /\ (w_end w < w_off w + len l -> exists w', f w = Ok (false, w') /\ stays w w').

(* f is well defined and stays in the window *)
Definition confined (f : wr) : Prop :=
  forall w, wf w -> exists b w', f w = Ok (b, w') /\ stays w w'.

Lemma emits_confined f l : emits f l -> confined f.
Proof.
  intros H w Hw. destruct (H w Hw) as [H1 H2].
  destruct (Z_le_gt_dec (w_off w + len l) (w_end w)) as [C|C].
  - exists true, (put w l). split; [auto|]. now apply stays_put.
  - destruct H2 as (w' & E & S); [lia|]. eauto.
Qed.

Lemma emits_wok : emits wok [].
Proof.
  intros w Hw. split; intros H.
  - unfold wok. now rewrite put_nil.
  - rewrite len_nil in H. destruct Hw; lia.
Qed.

Lemma emits_seq f g l k : emits f l -> emits g k -> emits (wseq f g) (l ++ k).
Proof.
  intros Hf Hg w Hw. destruct (Hf w Hw) as [F1 F2]. pose proof (len_nonneg l). pose proof (len_nonneg k).
  rewrite len_app. unfold wseq. split; intros H1.
  - rewrite F1 by lia. cbn [bind]. destruct (Hg (put w l)) as [G1 _]; [apply wf_put; lia || assumption|].
    rewrite G1 by (cbn [put w_off w_end]; lia). rewrite put_put by (assumption || lia). reflexivity.
  - destruct (Z_le_gt_dec (w_off w + len l) (w_end w)) as [C|C].
    + rewrite F1 by lia. cbn [bind]. destruct (Hg (put w l)) as [_ G2]; [apply wf_put; lia || assumption|].
      destruct G2 as (w' & E & S); [cbn [put w_off w_end]; lia|]. exists w'. split; [exact E|].
      apply (stays_trans w (put w l)); [apply stays_put; [assumption|lia]|exact S].
    + destruct F2 as (w' & E & S); [lia|]. rewrite E. cbn [bind]. eauto.
Qed.

Inductive emits_all : list wr -> list Z -> Prop :=
| ea_nil : emits_all [] []
| ea_cons f r l k : emits f l -> emits_all r k -> emits_all (f :: r) (l ++ k).

Lemma emits_seqs r l : emits_all r l -> emits (wseqs r) l.
Proof. induction 1; cbn [wseqs]; [apply emits_wok|now apply emits_seq]. Qed.

Lemma emits_byte v : emits (write_byte v) [u8 v].
Proof.
  intros w [H1 H2]. unfold write_byte. rewrite len_cons, len_nil. split; intros H.
  - destruct (Z.leb_spec (w_end w) (w_off w)); [lia|]. unfold set_nth.
    replace ((w_off w <? 0) || (len (w_out w) <=? w_off w)) with false by lia. cbn [bind].
    unfold put. rewrite len_cons, len_nil. replace (w_off w + (1 + 0)) with (w_off w + 1) by lia. do 3 f_equal.
    unfold splice. rewrite len_cons, len_nil.
    replace (Z.to_nat (w_off w + (1 + 0))) with (S (Z.to_nat (w_off w))) by lia.
    assert (K : (Z.to_nat (w_off w) < length (w_out w))%nat) by (unfold len in *; lia).
    revert K. generalize (Z.to_nat (w_off w)) (w_out w) (u8 v). clear.
    intros n l x. revert n. induction l as [|y l IH]; intros [|n] K; cbn [length upd firstn skipn app] in *; try lia; try reflexivity.
    now rewrite IH by lia.
  - destruct (Z.leb_spec (w_end w) (w_off w)); [|lia]. exists w. split; [reflexivity|]. apply stays_refl. split; lia.
Qed.

Lemma u8_byte v : byte (u8 v).
Proof. unfold byte, u8. lia. Qed.

Lemma u8_land v : u8 (Z.land v 255) = u8 v.
Proof. unfold u8. rewrite land_255. lia. Qed.

Lemma emits_word v : emits (write_word v) [u8 v; u8 (Z.shiftr v 8)].
Proof. unfold write_word. rewrite <- (u8_land v). apply (emits_seq _ _ [_] [_]); apply emits_byte. Qed.

Lemma put_range_ok a i l : 0 <= i -> i + len l <= len a -> put_range a i l = Ok (splice a i l).
Proof.
  intros H1 H2. unfold put_range. replace ((i <? 0) || (len a <? i + len l)) with false by lia. reflexivity.
Qed.

Lemma emits_bytes array i j : 0 <= i -> i <= j -> j <= len array -> emits (write_bytes array i j) (slice array i j).
Proof.
  intros Hi Hj Hl w [H1 H2]. unfold write_bytes. rewrite len_slice by lia. split; intros H.
  - replace (w_end w <? w_off w + (j - i)) with false by lia. rewrite get_range_ok by lia. cbn [bind].
    rewrite put_range_ok by (rewrite ?len_slice; lia). cbn [bind]. unfold put. rewrite len_slice by lia. reflexivity.
  - replace (w_end w <? w_off w + (j - i)) with true by lia. exists w. split; [reflexivity|]. apply stays_refl. split; lia.
Qed.

Lemma emits_bytes_full l : emits (write_bytes l 0 (len l)) l.
Proof.
  rewrite <- (slice_full l) at 3. apply emits_bytes; [lia|apply len_nonneg|lia].
Qed.

Lemma emits_string s : emits (write_string s) (map u8 s).
Proof.
  induction s as [|c s IH]; cbn [write_string map]; [apply emits_wok|].
  apply (emits_seq _ _ [_]); [apply emits_byte|exact IH].
Qed.

Lemma emits_if (b : bool) f l : emits f l -> emits (wif b f) (if b then l else []).
Proof. destruct b; cbn [wif]; [auto|intros _; apply emits_wok]. Qed.

Lemma emits_ext f g l : (forall w, f w = g w) -> emits f l -> emits g l.
Proof. intros E H w Hw. rewrite <- E. now apply H. Qed.

Lemma emits_eq f l k : emits f l -> l = k -> emits f k.
Proof. now intros H <-. Qed.

Lemma emits_bind {A} (m : outcome A) a k l : m = Ok a -> emits (k a) l -> emits (wbind m k) l.
Proof. intros -> H. exact H. Qed.

(* consequence for a successful or failing call *)
Lemma emits_ok f l w w' : emits f l -> wf w -> f w = Ok (true, w') -> w' = put w l /\ w_off w + len l <= w_end w.
Proof.
  intros H Hw E. destruct (H w Hw) as [H1 H2].
  destruct (Z_le_gt_dec (w_off w + len l) (w_end w)) as [C|C].
  - rewrite H1 in E by lia. split; [congruence|lia].
  - destruct H2 as (x & E' & _); [lia|]. congruence.
Qed.

Ltac emits_step :=
  match goal with
  | |- emits (wseqs _) _ => eapply emits_seqs
  | |- emits_all (_ :: _) _ => eapply ea_cons
  | |- emits_all [] _ => apply ea_nil
  | |- emits (write_byte _) _ => apply emits_byte
  | |- emits (write_word _) _ => apply emits_word
  | |- emits (write_string _) _ => apply emits_string
  | |- emits (wif _ _) _ => apply emits_if
  | |- emits wok _ => apply emits_wok
  | |- emits (wseq _ _) _ => eapply emits_seq
  end.
Ltac emits_auto := repeat emits_step.
