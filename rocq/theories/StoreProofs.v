(* Stores of consecutive bytes into a caller's buffer *)
From Verif Require Import Base BaseFacts Loop InfoModel WriterModel WriterProofs PokeyModel.

Lemma upd_firstn (l : list Z) i v : (i < length l)%nat -> upd l i v = firstn i l ++ v :: skipn (S i) l.
Proof.
  revert i. induction l as [|x l IH]; intros [|i] H; cbn in *; try lia; [reflexivity|]. f_equal. apply IH. lia.
Qed.

Lemma upd_splice l i v : 0 <= i < len l -> upd l (Z.to_nat i) v = splice l i [v].
Proof.
  intros H. rewrite upd_firstn by (unfold len in *; lia). unfold splice. change (len [v]) with 1. cbn [app].
  replace (Z.to_nat (i + 1)) with (S (Z.to_nat i)) by lia. reflexivity.
Qed.

Lemma at_splice_out l i r k : 0 <= i -> i + len r <= len l -> 0 <= k -> ~ (i <= k < i + len r) -> at_ (splice l i r) k = at_ l k.
Proof.
  intros H1 H2 H3 H4. unfold at_, splice, len in *.
  assert (L : length (firstn (Z.to_nat i) l) = Z.to_nat i) by (rewrite firstn_length; lia).
  destruct (Z_lt_ge_dec k i) as [K|K].
  - rewrite app_nth1 by lia. rewrite <- (firstn_skipn (Z.to_nat i) l) at 2. rewrite app_nth1 by lia. reflexivity.
  - rewrite app_nth2 by lia. rewrite app_nth2 by lia. rewrite L. set (m := Z.to_nat (i + Z.of_nat (length r))).
    rewrite <- (firstn_skipn m l) at 2. rewrite app_nth2 by (rewrite firstn_length; lia). f_equal. rewrite firstn_length. lia.
Qed.

Lemma store_bytes_ok r : forall l i, 0 <= i -> i + len r <= len l -> store_bytes l i r = Ok (splice l i r).
Proof.
  induction r as [|v r IH]; intros l i H1 H2; cbn [store_bytes].
  - now rewrite splice_nil.
  - rewrite len_cons in H2. assert (H0 : 0 <= len r) by apply len_nonneg. unfold set_nth. destruct ((i <? 0) || (len l <=? i)) eqn:E; [lia|]. cbn [bind].
    rewrite IH; [|lia|rewrite BaseFacts.len_upd; lia]. f_equal. rewrite upd_splice by lia. change (v :: r) with ([v] ++ r).
    rewrite <- (splice_splice l i [v] r); [reflexivity|lia|]. change (len [v]) with 1. lia.
Qed.

Lemma store_bytes_inv r l i b : store_bytes l i r = Ok b -> r <> [] -> 0 <= i /\ i + len r <= len l /\ b = splice l i r.
Proof.
  intros E N. assert (H : 0 <= i /\ i + len r <= len l).
  { revert l i E N. induction r as [|v r IH]; intros l i E N; [congruence|]. cbn [store_bytes] in E. unfold set_nth in E.
    destruct ((i <? 0) || (len l <=? i)) eqn:X; [discriminate|]. cbn [bind] in E. rewrite len_cons. destruct r as [|w r].
    - change (len []) with 0. lia.
    - specialize (IH _ _ E ltac:(discriminate)). rewrite BaseFacts.len_upd in IH. lia. }
  destruct H as [H1 H2]. rewrite store_bytes_ok in E by assumption. injection E as <-. auto.
Qed.
Lemma store_bytes_ub r l i : ~ (0 <= i /\ i + len r <= len l) -> r <> [] -> store_bytes l i r = UB UbWrite.
Proof.
  revert l i. induction r as [|v r IH]; intros l i H N; [congruence|]. cbn [store_bytes]. unfold set_nth.
  destruct ((i <? 0) || (len l <=? i)) eqn:X; [reflexivity|]. cbn [bind]. rewrite len_cons in H. destruct r as [|w r].
  - change (len []) with 0 in H. lia.
  - apply IH; [|discriminate]. rewrite BaseFacts.len_upd. lia.
Qed.
