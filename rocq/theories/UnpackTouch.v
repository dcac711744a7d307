(* The streams of the compressor do not get in the way of the decompressor *)
From Verif Require Import Base BaseFacts MemModel CpuSpec InfoModel WriterModel WriterProofs SapSpec FlashPackModel FlashSpec FlashEncode FlashCompress FlashFile UnpackSpec UnpackProofs.

(* a touch by one of the items, with the items after it to be read and at most K/64 bytes more, at most L bytes in all *)
Definition by_item (K L : Z) (its : list fp_item) (st : unpacker) (t : touch) : Prop :=
  exists I1 it I2, its = I1 ++ it :: I2 /\ In (fst t) (item_addrs (run_items I1 st) it) /\ 64 * snd t <= wts I2 + K /\ snd t <= L.

Lemma by_item_mono K K' L L' its st t : K <= K' -> L <= L' -> by_item K L its st t -> by_item K' L' its st t.
Proof. intros HK HL (I1 & it & I2 & E & A & B & C). exists I1, it, I2. split; [exact E|]. split; [exact A|]. lia. Qed.
Lemma by_item_left K L a b st t : by_item (K + wts b) L a st t -> by_item K L (a ++ b) st t.
Proof.
  intros (I1 & it & I2 & -> & A & B & C). exists I1, it, (I2 ++ b). rewrite <- app_assoc. split; [reflexivity|]. split; [exact A|]. rewrite wts_app. lia.
Qed.
Lemma by_item_right K L a b st t : by_item K L b (run_items a st) t -> by_item K L (a ++ b) st t.
Proof.
  intros (I1 & it & I2 & -> & A & B & C). exists (a ++ I1), it, I2. rewrite <- app_assoc. split; [reflexivity|]. split; [|now split].
  unfold run_items in *. rewrite fold_left_app. exact A.
Qed.

Lemma copy_touches_addrs k n : forall st t, In t (copy_touches k n st) -> In (fst t) (copy_addrs n st) /\ snd t = k.
Proof.
  induction n as [|n IH]; intros st t H; [destruct H|]. cbn [copy_touches copy_addrs] in *. destruct H as [<-|[<-|H]].
  - split; [now left|reflexivity].
  - split; [right; now left|reflexivity].
  - apply IH in H as [H ->]. split; [right; now right|reflexivity].
Qed.

Lemma item_touch it r st t : item_ok it -> In t (item_touches (nonliteral it) (item_bytes it ++ r) st) -> In (fst t) (item_addrs st it) /\ snd t = len r.
Proof.
  destruct it as [ty v]. unfold item_ok, nonliteral, item_bytes, item_addrs. cbn [fst snd].
  destruct ty; cbn [is_literal negb app item_touches]; intros H Ht.
  - destruct Ht as [<-|[]]. split; [now left|reflexivity].
  - unfold u8 in Ht. rewrite Z.shiftl_mul_pow2 in Ht by lia. change (2 ^ 1) with 2 in Ht. rewrite Z.mod_small in Ht by lia.
    replace (2 <=? (128 - v) * 2) with true in Ht by lia. replace (((128 - v) * 2) mod 2) with 0 in Ht by lia. replace (128 - (128 - v) * 2 / 2) with v in Ht by lia. now apply copy_touches_addrs in Ht.
  - unfold u8 in Ht. rewrite Z.shiftl_mul_pow2 in Ht by lia. change (2 ^ 1) with 2 in Ht. rewrite Z.mod_small in Ht by lia.
    replace (2 <=? (128 - v) * 2 + 1) with true in Ht by lia. replace (((128 - v) * 2 + 1) mod 2) with 1 in Ht by lia. replace (128 - ((128 - v) * 2 + 1) / 2) with v in Ht by lia. now apply copy_touches_addrs in Ht.
  - change (2 <=? 1) with false in Ht. change (1 =? 1) with true in Ht. cbn iota in Ht. unfold u8 in Ht. rewrite Z.mod_small in Ht by lia. now apply copy_touches_addrs in Ht.
  - destruct Ht.
  - destruct Ht.
Qed.

Lemma items_len its : 64 * len (flat_map item_bytes its) + len its <= wts its.
Proof.
  induction its as [|it its IH]; cbn [flat_map wts fold_right]; [reflexivity|]. fold (wts its). rewrite len_app, len_cons. unfold wt. destruct (nonliteral it); lia.
Qed.

Lemma items_touch its : forall pad r st t, Forall item_ok its -> pad = [] \/ existsb ends its = true ->
  In t (items_touches (map nonliteral its ++ pad) (flat_map item_bytes its ++ r) st) -> by_item (64 * len r) (len (flat_map item_bytes its ++ r)) its st t.
Proof.
  induction its as [|it its IH]; intros pad r st t H P Ht.
  - destruct P as [->|P]; [destruct Ht|discriminate].
  - cbn [map app flat_map items_touches] in *. rewrite <- app_assoc in *. rewrite unpack_item_bytes in Ht by exact (Forall_inv H). apply in_app_or in Ht as [Ht|Ht].
    + apply item_touch in Ht as [A B]; [|exact (Forall_inv H)]. exists [], it, its. split; [reflexivity|]. split; [exact A|]. rewrite B, !len_app.
      pose proof (items_len its). pose proof (len_nonneg its). pose proof (len_nonneg (item_bytes it)). lia.
    + destruct (ends it) eqn:E; [destruct Ht|]. cbn [after] in Ht. cbn [existsb] in P. rewrite E in P. apply IH in Ht; [|exact (Forall_inv_tail H)|exact P].
      apply (by_item_right _ _ [it]). eapply by_item_mono; [apply Z.le_refl| |exact Ht]. rewrite (len_app (item_bytes it)). pose proof (len_nonneg (item_bytes it)). lia.
Qed.

(* ---- groups ---- *)
Lemma head_len items i rest : inner_flags items i = inner_flags_loop 8 1 rest -> 64 * len (group_head items i ++ flat_map item_bytes (firstn 8 rest)) + len (firstn 8 rest) <= wts (firstn 8 rest).
Proof.
  intros E. unfold group_head. rewrite E. destruct (Z.eqb_spec (inner_flags_loop 8 1 rest) 0) as [Z0|N].
  - apply items_len.
  - rewrite len_app. change (len [inner_flags_loop 8 1 rest]) with 1.
    assert (X : existsb nonliteral (firstn 8 rest) = true).
    { destruct (existsb nonliteral (firstn 8 rest)) eqn:Q; [reflexivity|]. exfalso. apply N. rewrite inner_byte. unfold flag_at.
      clear - Q. do 8 (destruct rest as [|? rest]; [cbn [firstn existsb map nth] in *; rewrite ?orb_false_iff in Q; repeat match type of Q with _ /\ _ => let H := fresh in destruct Q as [H Q]; rewrite ?H in * end; reflexivity|]).
      cbn [firstn existsb map nth] in *. rewrite !orb_false_iff in Q. destruct Q as (H1 & H2 & H3 & H4 & H5 & H6 & H7 & H8 & _). now rewrite H1, H2, H3, H4, H5, H6, H7, H8. }
    clear - X. revert X. generalize (firstn 8 rest) as l. induction l as [|it l IH]; [discriminate|]. cbn [existsb flat_map wts fold_right]. fold (wts l). rewrite len_app, len_cons. unfold wt.
    intros X. destruct (nonliteral it); cbn [orb] in X.
    + pose proof (items_len l). lia.
    + specialize (IH X). lia.
Qed.

Lemma loop_len items : forall k rest, rest = skipn (8 * (8 - k)) items -> (k <= 8)%nat -> (length items <= 64)%nat ->
  64 * len (put_items_loop items rest (8 * Z.of_nat (8 - k))) + len rest <= wts rest.
Proof.
  induction k as [|k IH]; intros rest Er Hk Hl.
  - assert (N : rest = []) by (rewrite Er; apply skipn_all2; lia). rewrite N. reflexivity.
  - destruct rest as [|x rest']; [reflexivity|]. set (rest := x :: rest') in *. rewrite put_group by (lia || discriminate).
    set (mm := (8 - S k)%nat) in *.
    assert (EI : inner_flags items (8 * Z.of_nat mm) = inner_flags_loop 8 1 rest).
    { unfold inner_flags. rewrite Er. replace (Z.to_nat (8 * Z.of_nat mm)) with (8 * mm)%nat by lia. reflexivity. }
    assert (Er' : skipn 8 rest = skipn (8 * (8 - k)) items) by (rewrite Er, skipn_skipn_plus; f_equal; lia).
    replace (8 * Z.of_nat mm + 8) with (8 * Z.of_nat (8 - k)) by lia.
    specialize (IH (skipn 8 rest) Er' ltac:(lia) Hl). pose proof (head_len items (8 * Z.of_nat mm) rest EI) as HL.
    rewrite app_assoc, len_app. rewrite <- (firstn_skipn 8 rest) at 4. rewrite wts_app.
    assert (LR : len rest = len (firstn 8 rest) + len (skipn 8 rest)) by (rewrite <- len_app, firstn_skipn; reflexivity). lia.
Qed.

Lemma groups_touch items : forall k rest r st t,
  rest = skipn (8 * (8 - k)) items -> (k <= 8)%nat -> (length items <= 64)%nat -> Forall item_ok rest ->
  (length items = 64)%nat \/ existsb ends rest = true ->
  In t (groups_touches (map (fun m => negb (inner_flags items (8 * Z.of_nat m) =? 0)) (seq (8 - k) k))
    (put_items_loop items rest (8 * Z.of_nat (8 - k)) ++ r) st) ->
  by_item (64 * len r) (len (put_items_loop items rest (8 * Z.of_nat (8 - k)) ++ r)) rest st t.
Proof.
  induction k as [|k IH]; intros rest r st t Er Hk Hl Ok P.
  - cbn [seq map groups_touches]. intros [].
  - cbn [seq map groups_touches]. set (m := (8 - S k)%nat) in *. assert (Em : (8 - k = S m)%nat) by lia.
    assert (Nr : rest <> []).
    { intros E0. rewrite E0 in *. destruct P as [P|P]; [|discriminate]. apply (f_equal (@length _)) in Er. rewrite skipn_length in Er. cbn [length] in Er. lia. }
    rewrite put_group by (lia || exact Nr). rewrite <- !app_assoc.
    assert (EI : inner_flags items (8 * Z.of_nat m) = inner_flags_loop 8 1 rest).
    { unfold inner_flags. rewrite Er. replace (Z.to_nat (8 * Z.of_nat m)) with (8 * m)%nat by lia. reflexivity. }
    assert (L8 : (8 <= length rest)%nat \/ existsb ends (firstn 8 rest) = true).
    { destruct (Nat.le_gt_cases 8 (length rest)) as [L|L]; [now left|right]. rewrite firstn_all2 by lia. destruct P as [P|P]; [|exact P].
      exfalso. apply (f_equal (@length _)) in Er. rewrite skipn_length in Er. lia. }
    rewrite (unpack_group items (8 * Z.of_nat m) rest _ st Ok EI L8).
    assert (Er' : skipn 8 rest = skipn (8 * (8 - k)) items).
    { rewrite Er, skipn_skipn_plus. f_equal; lia. }
    replace (8 * Z.of_nat m + 8) with (8 * Z.of_nat (8 - k)) by lia.
    set (more := put_items_loop items (skipn 8 rest) (8 * Z.of_nat (8 - k)) ++ r).
    assert (Ok8 : Forall item_ok (firstn 8 rest) /\ Forall item_ok (skipn 8 rest)).
    { rewrite <- (firstn_skipn 8 rest) in Ok. apply Forall_app in Ok. exact Ok. }
    pose proof (len_nonneg (group_head items (8 * Z.of_nat m))) as N1.
    intros Ht. apply in_app_or in Ht as [Ht|Ht].
    + assert (G : by_item (64 * len more) (len (flat_map item_bytes (firstn 8 rest) ++ more)) (firstn 8 rest) st t).
      { unfold group_touches, group_head in Ht. rewrite EI in Ht. destruct (flags8_pad rest) as (pad & F & Hp).
        assert (Q : pad = [] \/ existsb ends (firstn 8 rest) = true) by (destruct L8 as [L|L]; [left; now apply Hp|now right]).
        destruct (inner_flags_loop 8 1 rest =? 0) eqn:Z0; cbn [negb app] in Ht.
        - rewrite (inner_zero rest) in Ht by lia. rewrite F in Ht. eapply items_touch; [apply Ok8|exact Q|exact Ht].
        - rewrite inner_bits, F in Ht. eapply items_touch; [apply Ok8|exact Q|exact Ht]. }
      rewrite <- (firstn_skipn 8 rest) at 2. apply by_item_left. eapply by_item_mono; [| |exact G].
      * unfold more. rewrite len_app. pose proof (loop_len items k (skipn 8 rest) Er' ltac:(lia) Hl). pose proof (len_nonneg (skipn 8 rest)). lia.
      * rewrite (len_app (group_head _ _)). lia.
    + destruct (existsb ends (firstn 8 rest)) eqn:E8.
      * assert (RS : exists s', read_items more (firstn 8 rest) st = Stop s').
        { revert E8. generalize (firstn 8 rest) as l. intros l. clear. revert st. induction l as [|it l IHl]; intros st E8; [discriminate|].
          cbn [existsb read_items] in *. destruct (ends it); [eauto|]. now apply IHl. }
        destruct RS as (s' & RS). rewrite RS in Ht. destruct Ht.
      * rewrite read_next in Ht by exact E8. cbn [after] in Ht. unfold more in Ht. rewrite <- Em in Ht.
        apply IH in Ht; [|exact Er'|lia|exact Hl|apply Ok8|].
        -- rewrite <- (firstn_skipn 8 rest) at 2. apply by_item_right. eapply by_item_mono; [apply Z.le_refl| |exact Ht]. unfold more. rewrite (len_app (group_head _ _)), (len_app (flat_map _ _)). pose proof (len_nonneg (flat_map item_bytes (firstn 8 rest))). lia.
        -- destruct P as [P|P]; [now left|right]. rewrite <- (firstn_skipn 8 rest), existsb_app, E8 in P. exact P.
Qed.

Lemma chunk_touch items r st t : (length items <= 64)%nat -> Forall item_ok items -> (length items = 64)%nat \/ existsb ends items = true ->
  In t (groups_touches (bits (u8 (outer_flags_loop 8 items 0 0))) (put_items_loop items items 0 ++ r) st) ->
  by_item (64 * len r) (len (put_items_loop items items 0 ++ r)) items st t.
Proof.
  intros Hl Ok P. destruct (outer_byte items Hl) as [B R]. unfold u8. rewrite Z.mod_small by exact R. rewrite B.
  apply (groups_touch items 8); try assumption; [reflexivity|lia].
Qed.

Lemma chunk_len items : (length items <= 64)%nat -> 64 * len (chunk_bytes items) + len items <= wts items + 64.
Proof. intros H. unfold chunk_bytes. rewrite len_cons. pose proof (loop_len items 8 items eq_refl ltac:(lia) H) as L. change (8 * Z.of_nat (8 - 8)) with 0 in L. lia. Qed.

Lemma chunks_len chunks : Forall whole chunks -> 64 * len (flat_map chunk_bytes chunks) <= wts (concat chunks).
Proof.
  induction 1 as [|c chunks (L & _) _ IH]; cbn [flat_map concat]; [cbn; lia|]. rewrite len_app, wts_app. pose proof (chunk_len c ltac:(lia)). assert (len c = 64) by (unfold len; lia). lia.
Qed.

Lemma last_len (last : list fp_item) : (length last <= 63)%nat -> 64 * len (chunk_bytes (last ++ [(END_OF_STREAM, 0)])) <= wts last + 256.
Proof.
  intros H. pose proof (chunk_len (last ++ [(END_OF_STREAM, 0)]) ltac:(rewrite app_length; cbn [length]; lia)) as C. rewrite wts_app, len_app in C.
  change (wts [(END_OF_STREAM, 0)]) with 193 in C. change (len [(END_OF_STREAM, 0)]) with 1 in C. pose proof (len_nonneg last). lia.
Qed.

Lemma stream_touch chunks : forall (last : list fp_item) st n t, Forall whole chunks -> (length last <= 63)%nat -> Forall item_ok last -> existsb ends last = false ->
  let s := flat_map chunk_bytes chunks ++ chunk_bytes (last ++ [(END_OF_STREAM, 0)]) in
  In t (touches n s st) -> by_item 256 (len s) (concat chunks ++ last) st t.
Proof.
  induction chunks as [|c chunks IH]; intros last st n t HC Hl Ok E s Ht; (destruct n as [|n]; [destruct Ht|]).
  - unfold s in *. cbn [flat_map app concat] in *. unfold chunk_bytes in Ht |- *. cbn [touches] in Ht.
    assert (L64 : (length (last ++ [(END_OF_STREAM, 0%Z)]) <= 64)%nat) by (rewrite app_length; cbn [length]; lia).
    assert (OkL : Forall item_ok (last ++ [(END_OF_STREAM, 0)])) by (apply Forall_app; split; [exact Ok|repeat constructor]).
    assert (EL : existsb ends (last ++ [(END_OF_STREAM, 0)]) = true) by (rewrite existsb_app; cbn [existsb ends fst]; apply orb_true_r).
    rewrite <- (app_nil_r (put_items_loop _ _ _)) in Ht. rewrite (unpack_chunk (last ++ [(END_OF_STREAM, 0)]) [] st L64 OkL (or_intror EL)) in Ht.
    rewrite read_app in Ht by exact E. cbn [read_items ends fst after] in Ht.
    apply in_app_or in Ht as [Ht|[]]. apply chunk_touch in Ht; [|exact L64|exact OkL|now right]. rewrite app_nil_r in Ht.
    destruct Ht as (I1 & it & I2 & EI & A & B & C). destruct (snoc_cases I2) as [->|(J & z & ->)].
    + apply app_inj_tail in EI as [<- <-]. destruct A.
    + rewrite app_comm_cons, app_assoc in EI. apply app_inj_tail in EI as [-> <-]. exists I1, it, J. split; [reflexivity|]. split; [exact A|]. rewrite wts_app in B. change (wts [(END_OF_STREAM, 0)]) with 193 in B. change (len (@nil Z)) with 0 in B.
      split; [lia|]. rewrite len_cons. lia.
  - pose proof (Forall_inv HC) as (L & OkC & EC). unfold s in *. cbn [flat_map concat] in *. rewrite <- app_assoc in *. unfold chunk_bytes at 1 in Ht. unfold chunk_bytes at 1. cbn [app touches] in *.
    set (more := flat_map chunk_bytes chunks ++ chunk_bytes (last ++ [(END_OF_STREAM, 0)])) in *.
    rewrite unpack_chunk in Ht; [|lia|exact OkC|now left]. rewrite read_next in Ht by exact EC. cbn [after] in Ht.
    rewrite <- app_assoc. apply in_app_or in Ht as [Ht|Ht].
    + apply chunk_touch in Ht; [|lia|exact OkC|now left]. apply by_item_left. eapply by_item_mono; [| |exact Ht].
      * unfold more. rewrite len_app, wts_app. pose proof (chunks_len chunks (Forall_inv_tail HC)). pose proof (last_len last Hl). lia.
      * rewrite len_cons. lia.
    + apply by_item_right. eapply by_item_mono; [apply Z.le_refl| |eapply IH; [exact (Forall_inv_tail HC)|exact Hl|exact Ok|exact E|exact Ht]].
      rewrite len_cons. fold more. rewrite (len_app (put_items_loop c c 0)). pose proof (len_nonneg (put_items_loop c c 0)). lia.
Qed.

(* ---- the first item ---- *)
Lemma first_item (it : fp_item) its r : nonliteral it = true -> (length (it :: its) <= 64)%nat -> (exists v, it = (SET_ADDRESS, v)) -> sets_address (chunk_bytes (it :: its) ++ r).
Proof.
  intros N Hl (v & ->). destruct (outer_byte (@cons fp_item (SET_ADDRESS, v) its) Hl) as [B R]. set (items := @cons fp_item (SET_ADDRESS, v) its) in *.
  assert (IB : Z.testbit (inner_flags items 0) 7 = true).
  { pose proof (f_equal (fun l => nth 0 l false) (inner_bits items)) as H. cbv beta in H. change (nth 0 (bits (inner_flags_loop 8 1 items)) false) with (Z.testbit (inner_flags items 0) 7) in H. rewrite H. reflexivity. }
  assert (I0 : inner_flags items 0 <> 0) by (intros Z0; rewrite Z0 in IB; discriminate).
  assert (IR : 0 <= inner_flags items 0 < 256) by apply inner_range.
  assert (OB : Z.testbit (outer_flags_loop 8 items 0 0) 7 = true).
  { pose proof (f_equal (fun l => nth 0 l false) B) as H. cbv beta in H. change (nth 0 (bits (outer_flags_loop 8 items 0 0)) false) with (Z.testbit (outer_flags_loop 8 items 0 0) 7) in H. rewrite H.
    cbn [seq map nth]. change (8 * Z.of_nat 0) with 0. destruct (Z.eqb_spec (inner_flags items 0) 0); [contradiction|reflexivity]. }
  assert (PL : put_items_loop items items 0 = inner_flags items 0 :: 0 :: ([u8 (v - 128); u8 (Z.shiftr (v - 128) 8)] ++ put_items_loop items its 1)).
  { change (put_items_loop items items 0) with ((if (Z.land 0 7 =? 0) && negb (inner_flags items 0 =? 0) then [u8 (inner_flags items 0)] else []) ++ item_bytes (SET_ADDRESS, v) ++ put_items_loop items its 1).
    change (Z.land 0 7 =? 0) with true. destruct (Z.eqb_spec (inner_flags items 0) 0); [contradiction|]. cbn [andb negb app item_bytes]. unfold u8 at 1. now rewrite Z.mod_small by assumption. }
  exists (outer_flags_loop 8 items 0 0), (inner_flags items 0). fold items. unfold chunk_bytes. rewrite PL. cbn [app]. unfold u8 at 1. rewrite (Z.mod_small (outer_flags_loop 8 items 0 0)) by assumption.
  eexists. split; [reflexivity|]. split; assumption.
Qed.

Lemma stream_sets_address (m : image) e out : proper_image m -> 0 <= e < 65536 -> compress_memory m e = Ok out -> sets_address out.
Proof.
  intros Hm He E. pose proof (stream_items m e (mkUnpacker (fun _ => 1000) (-1) 0) Hm He) as H. rewrite E in H. cbn [wpx] in H.
  destruct H as (chunks & last & c & -> & W & Ll & K & NE & (_ & _ & L) & G).
  assert (N : concat chunks ++ last <> []).
  { intros N. specialize (G 54286). rewrite N in G. cbn in G. unfold over in G. pose proof (Hm 54286 ltac:(lia)). destruct (_ && _) in G; [lia|]. vm_compute in G. discriminate. }
  assert (F : forall it its, item_ok it -> ends it = false -> concat chunks ++ last = it :: its -> exists v, it = (SET_ADDRESS, v)).
  { intros it its Ok NEi EI. destruct it as [[] v]; try (now exists v); try discriminate; exfalso.
    all: assert (X : usable m 0 (-1)) by (refine (proj1 (L [] _ its EI (-1) _)); unfold item_ok in Ok; cbn [fst snd] in Ok; cbn [run_items fold_left item_addrs];
      first [now left|right; now left|destruct (Z.to_nat v) eqn:Ev; [lia|right; now left]]);
      destruct X as [X|X]; [unfold poked in X; cbn [In] in X; lia|lia]. }
  destruct chunks as [|ch chunks].
  - cbn [flat_map app concat] in *. destruct last as [|it its]; [congruence|].
    assert (S : exists v, it = (SET_ADDRESS, v)) by (apply (F it its (Forall_inv K)); [cbn [existsb] in NE; now apply orb_false_iff in NE|reflexivity]).
    rewrite <- (app_nil_r (chunk_bytes _)). cbn [app]. apply first_item; [destruct S as [v ->]; reflexivity| |exact S]. cbn [length] in *. rewrite app_length. cbn [length]. lia.
  - destruct (Forall_inv W) as (LC & OkC & EC). destruct ch as [|it its]; [discriminate|]. cbn [flat_map concat]. rewrite <- app_assoc.
    assert (S : exists v, it = (SET_ADDRESS, v)) by (apply (F it (its ++ concat chunks ++ last) (Forall_inv OkC)); [cbn [existsb] in EC; now apply orb_false_iff in EC|cbn [concat app]; now rewrite <- app_assoc]).
    apply first_item; [destruct S as [v ->]; reflexivity|lia|exact S].
Qed.

(* ---- nothing gets in the way ---- *)
Lemma stream_free (m : image) e out sp u n : proper_image m -> 9216 <= e <= 48159 -> (forall a, e - 1023 <= a <= e -> m a < 0) -> 8192 <= e - 87 - len out ->
  (forall a, 252 <= a <= 255 -> m a < 0) -> 0 <= sp < 256 -> m (256 + sp) < 0 -> m (256 + w8 (sp - 1)) < 0 -> stretches m (Z.to_nat (e + 1)) <= 66 ->
  compress_memory m e = Ok out -> Forall (free (e - 87) sp) (touches n out u).
Proof.
  intros Hm He HH Hsrc H0 Hsp S1 S2 Hr E. pose proof (stream_items m e u Hm ltac:(lia)) as H. rewrite E in H. cbn [wpx] in H.
  destruct H as (chunks & last & c & -> & W & Ll & K & NE & (C1 & C2 & L) & _). apply Forall_forall. intros t Ht.
  apply stream_touch in Ht; [|exact W|exact Ll|exact K|exact NE]. destruct Ht as (I1 & it & I2 & EI & A & B & Lk). destruct (L I1 it I2 EI _ A) as [U Z0]. destruct t as [x k]. cbn [fst snd] in *.
  assert (W8 : 0 <= w8 (sp - 1) < 256) by (unfold w8; apply Z.mod_pos_bound; lia).
  clear L A EI W Ll K NE. unfold free, own. destruct U as [P|[P V]].
  - assert (Q : x = 580 \/ 53774 <= x <= 54286) by (unfold poked in P; cbn [In] in P; clear - P; lia). clear - Q Hsp W8 He Hsrc Lk. lia.
  - assert (NX : ~ (e - 1023 <= x <= e)) by (intros X; specialize (HH x X); lia).
    split.
    + intros [X|[X|[X|X]]]; [specialize (H0 x X); lia|rewrite X in V; lia|rewrite X in V; lia|clear - X NX; lia].
    + intros X. destruct (Z.le_gt_cases x e) as [LX|LX]; [|clear - LX X; lia].
      assert (NP : ~ poked x). { unfold poked. cbn [In]. intros Q. clear - Q LX X He Lk Hsrc. lia. }
      assert (XE : x < e) by (clear - NX LX; lia). specialize (Z0 (conj XE NP)).
      assert (CC : c - 1 <= e - 1024). { destruct C2 as [C2|C2]; [lia|]. destruct (Z.le_gt_cases (c - 1) (e - 1024)) as [Y|Y]; [exact Y|]. specialize (HH (c - 1) ltac:(lia)). lia. }
      assert (R1 : upto_runs m c <= 66). { etransitivity; [apply (runs_mono m c e); clear - CC; lia|exact Hr]. }
      assert (R2 : 1 <= upto_runs m x).
      { clear - P V Hm. assert (Y : forall n y, y = Z.of_nat n -> 0 <= y < 65536 -> 0 <= m y -> 1 <= upto_runs m y).
        { induction n as [|n IH]; intros y Ey Hy Vy.
          - pose proof (runs_new m (-1) y ltac:(lia) Hy Vy ltac:(left; lia)). change (upto_runs m (-1)) with 0 in *. lia.
          - destruct (Z.lt_ge_cases (m (y - 1)) 0) as [N|N].
            + pose proof (runs_new m (-1) y ltac:(lia) Hy Vy ltac:(now right)). change (upto_runs m (-1)) with 0 in *. lia.
            + pose proof (IH (y - 1) ltac:(lia) ltac:(lia) N). pose proof (runs_mono m (y - 1) y ltac:(lia)). lia. }
        apply (Y (Z.to_nat x)); lia. }
      clear - X Z0 B CC R1 R2 He P NX LX. lia.
Qed.

(* ---- stretches of an executable ---- *)
Lemma stretches_sum m n : stretches m n = sum (fun a => if starts_at m a then 1 else 0) n 0.
Proof.
  induction n as [|n IH]; [reflexivity|]. cbn [stretches]. replace (S n) with (n + 1)%nat by lia. rewrite sum_app. cbn [sum]. rewrite IH. replace (0 + Z.of_nat n) with (Z.of_nat n) by lia. lia.
Qed.

Definition firsts (bs : list block) (a : Z) : Z := fold_right (fun b s => isat a (first b) + s) 0 bs.
Lemma firsts_nonneg bs a : 0 <= firsts bs a.
Proof. induction bs as [|b bs IH]; cbn [firsts fold_right]; [lia|]. fold (firsts bs a). unfold isat. destruct (a =? first b); lia. Qed.
Lemma firsts_in bs b : In b bs -> 1 <= firsts bs (first b).
Proof.
  induction bs as [|b0 bs IH]; intros H; [destruct H|]. cbn [firsts fold_right]. fold (firsts bs (first b)). pose proof (firsts_nonneg bs (first b)). destruct H as [->|H].
  - unfold isat. rewrite Z.eqb_refl. lia.
  - specialize (IH H). unfold isat. destruct (_ =? _); lia.
Qed.
Lemma firsts_sum bs n : sum (firsts bs) n 0 <= len bs.
Proof.
  induction bs as [|b bs IH].
  - change (len (@nil block)) with 0. assert (Y : forall k a, sum (firsts []) k a = 0) by (induction k as [|k IHk]; intros a; cbn [sum]; [reflexivity|rewrite IHk; reflexivity]). rewrite Y. lia.
  - rewrite len_cons. change (firsts (b :: bs)) with (fun a => isat a (first b) + firsts bs a). rewrite sum_add. rewrite sum_isat. destruct (_ && _); lia.
Qed.

Lemma stretches_blocks bs n : Forall proper_block bs -> stretches (data_of (program bs)) n <= len bs + 1.
Proof.
  intros HP. rewrite stretches_sum.
  assert (X : forall a, (if starts_at (data_of (program bs)) a then 1 else 0) <= firsts bs a + isat a 738).
  { intros a. pose proof (firsts_nonneg bs a) as F. assert (I0 : 0 <= isat a 738) by (unfold isat; destruct (_ =? _); lia). destruct (starts_at (data_of (program bs)) a) eqn:E; [|lia]. unfold starts_at in E.
    apply andb_true_iff in E as [V N]. assert (V' : 0 <= program bs a) by (unfold data_of in V; destruct ((a =? 736) || (a =? 737)); lia).
    destruct (load_covered bs _ _ V') as [Bad|(b & Ib & Cb)]; [lia|].
    destruct (Z.eq_dec a (first b)) as [->|NF]; [pose proof (firsts_in bs b Ib); lia|].
    assert (C' : covers b (a - 1)) by (destruct b as [[mk st] d]; cbn [covers first] in *; lia).
    pose proof (load_covers bs (fun _ => -1) (a - 1) b HP Ib C') as V1. fold (program bs) in V1.
    assert (A0 : 0 < a). { rewrite Forall_forall in HP. pose proof (HP b Ib) as PB. destruct b as [[mk st] d]. cbn [covers first proper_block] in *. lia. }
    unfold data_of in N. destruct ((a - 1 =? 736) || (a - 1 =? 737)) eqn:Q; [|lia].
    unfold data_of in V. unfold isat. replace (a =? 738) with true; [lia|]. destruct ((a =? 736) || (a =? 737)) eqn:Q2; lia. }
  etransitivity; [apply (sum_le _ (fun a => firsts bs a + isat a 738)); exact X|]. rewrite sum_add, sum_isat. pose proof (firsts_sum bs n). destruct (_ && _); lia.
Qed.

(* ---- bytes ---- *)
Lemma u8_byte v : byte (u8 v).
Proof. unfold byte, u8. lia. Qed.
Lemma word_bytes v : 0 <= v < 65536 -> bytes (word v).
Proof. intros H. unfold word. repeat constructor; unfold byte; lia. Qed.
Lemma bytes_app a b : bytes a -> bytes b -> bytes (a ++ b).
Proof. intros. apply Forall_app. now split. Qed.
Lemma item_bytes_bytes it : bytes (item_bytes it).
Proof. destruct it as [[] v]; cbn [item_bytes]; repeat constructor; try apply u8_byte; unfold byte; lia. Qed.
Lemma loop_bytes items rest : forall i, bytes (put_items_loop items rest i).
Proof.
  induction rest as [|it r IH]; intros i; cbn [put_items_loop]; [constructor|]. apply bytes_app; [destruct (_ && _); [repeat constructor; apply u8_byte|constructor]|].
  apply bytes_app; [apply item_bytes_bytes|apply IH].
Qed.
Lemma chunk_bytes_bytes c : bytes (chunk_bytes c).
Proof. constructor; [apply u8_byte|apply loop_bytes]. Qed.
Lemma stream_bytes (m : image) e out : proper_image m -> 0 <= e < 65536 -> compress_memory m e = Ok out -> bytes out.
Proof.
  intros Hm He E. pose proof (stream_items m e (mkUnpacker (fun _ => 0) 0 0) Hm He) as H. rewrite E in H. destruct H as (chunks & last & c & -> & _).
  apply bytes_app; [|apply chunk_bytes_bytes]. clear E. induction chunks as [|ch chunks IH]; cbn [flat_map]; [constructor|]. apply bytes_app; [apply chunk_bytes_bytes|exact IH].
Qed.
Lemma depacker_bytes org source run : 0 <= org -> org + 88 <= 65536 -> 0 <= source < 65536 -> 0 <= run < 65536 -> bytes (depacker org source run).
Proof. intros H1 H2 H3 H4. unfold depacker. repeat (apply bytes_app; [first [apply word_bytes; lia|repeat constructor; unfold byte; lia]|]). first [apply word_bytes; lia|repeat constructor; unfold byte; lia]. Qed.

Lemma packed_runs bs w rest w' : Forall proper_block bs -> wf w -> w_out w = executable bs ++ rest -> w_off w = len (executable bs) ->
  fp_compress w = Ok (true, w') -> len bs <= 64 ->
  let m := program bs in
  exists blocks org, slice (w_out w') 0 (w_off w') = executable blocks /\ Forall proper_block blocks /\
    8192 <= org <= 48072 /\ (forall a, org - 936 <= a <= org + 87 -> data_of m a < 0) /\
    forall c, byte_mem (M c) -> byte (SP c) -> fD c = false -> in_memory (M c) blocks -> PC c = ld (M c) 736 + 256 * ld (M c) 737 ->
    m (256 + SP c) < 0 -> m (256 + w8 (SP c - 1)) < 0 ->
    exists d, gets c d /\ PC d = run_of m /\ SP d = SP c /\
      (forall a, 0 <= a < 65536 -> 0 <= data_of m a -> ld (M d) a = data_of m a) /\
      (forall a, 0 <= a < 65536 -> data_of m a < 0 -> ~ own org (SP c) a -> ld (M d) a = pokes (ld (M c)) a).
Proof.
  intros HP Hw Ho Hf E Hb m. pose proof (compress_whole bs w rest HP Hw Ho Hf) as H. cbv zeta in H. rewrite E in H. fold m in H.
  destruct H as (R1 & R2 & Z1 & Z2 & Z3 & Z4 & stream & e & He & Hs & HH & ES & SL & UN).
  assert (Hm : proper_image m) by (apply load_proper; [intros a Ha; lia|exact HP]).
  assert (RR : 0 <= run_of m < 65536) by (unfold run_of; pose proof (Hm 736 ltac:(lia)); pose proof (Hm 737 ltac:(lia)); lia).
  pose proof (len_nonneg stream) as NS.
  exists (packed stream e (run_of m)), (e - 87). split; [exact SL|]. split.
  { unfold packed. constructor; [|constructor; [|constructor; [|constructor]]]; unfold proper_block; (split; [lia|]); rewrite ?len_app, ?len_depacker, ?len_word; change (len [255]) with 1;
      (split; [lia|split; [lia|split; [|intros X; first [reflexivity|lia]]]]).
    - repeat constructor; unfold byte; lia.
    - apply bytes_app; [apply (stream_bytes (data_of m) e); [now apply data_proper|lia|exact ES]|apply depacker_bytes; lia].
    - apply word_bytes. lia. }
  split; [lia|]. split; [intros a Ha; apply HH; lia|].
  intros c HB HSP HD HI HPC V1 V2.
  pose proof (HI false (e - 87 - len stream) _ (or_intror (or_introl eq_refl))) as HHold.
  pose proof (HI false 736 _ (or_intror (or_intror (or_introl eq_refl)))) as HStart.
  assert (PC0 : PC c = e - 87 + 50).
  { rewrite HPC. pose proof (HStart 0 ltac:(rewrite len_word; lia)) as X0. pose proof (HStart 1 ltac:(rewrite len_word; lia)) as X1.
    change (736 + 0) with 736 in X0. change (736 + 1) with 737 in X1. rewrite X0, X1. unfold word. change (at_ [(e - 87 + 50) mod 256; (e - 87 + 50) / 256] 0) with ((e - 87 + 50) mod 256). change (at_ [(e - 87 + 50) mod 256; (e - 87 + 50) / 256] 1) with ((e - 87 + 50) / 256). lia. }
  set (u := mkUnpacker (ld (M c)) 0 (128 - ld (M c) 254)).
  destruct (UN u [] (length stream) (le_n _)) as (u' & UN' & G). rewrite app_nil_r in UN'.
  assert (D2 : forall a, m a < 0 -> data_of m a < 0) by (intros a Ha; unfold data_of; destruct ((a =? 736) || (a =? 737)); lia).
  assert (FR : Forall (free (e - 87) (SP c)) (touches (length stream) stream u)).
  { apply (stream_free (data_of m)); try assumption; try (now apply D2).
    - now apply data_proper.
    - intros a Ha. apply D2. assert (Q : a = 252 \/ a = 253 \/ a = 254 \/ a = 255) by (clear - Ha; lia). destruct Q as [->|[->|[->| ->]]]; assumption.
    - pose proof (stretches_blocks bs (Z.to_nat (e + 1)) HP) as S. fold m in S. lia. }
  destruct (depacker_runs c (e - 87) (e - 87 - len stream) (run_of m) stream (length stream) u u') as (d & GD & PD & SD & AG); try assumption; try lia; try reflexivity.
  { apply (stream_sets_address (data_of m) e); [now apply data_proper|lia|exact ES]. }
  exists d. split; [exact GD|]. split; [exact PD|]. split; [exact SD|]. split.
  - intros a Ha Va. rewrite AG; [|exact Ha|].
    + rewrite G. unfold over. now replace ((0 <=? a) && (a <? 65536) && (0 <=? data_of m a)) with true by lia.
    + unfold own. intros [O|[O|[O|O]]].
      * assert (Q : a = 252 \/ a = 253 \/ a = 254 \/ a = 255) by (clear - O; lia). assert (m a < 0) by (destruct Q as [->|[->|[->| ->]]]; assumption). specialize (D2 a ltac:(assumption)). lia.
      * rewrite O in Va. specialize (D2 _ V1). lia.
      * rewrite O in Va. specialize (D2 _ V2). lia.
      * specialize (HH a ltac:(clear - O; lia)). lia.
  - intros a Ha Va No. rewrite AG by assumption. rewrite G. unfold over. replace ((0 <=? a) && (a <? 65536) && (0 <=? data_of m a)) with false by lia. reflexivity.
Qed.
