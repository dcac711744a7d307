(* What the compressor writes for a sequence of items, the decompressor reads as these items. *)
From Verif Require Import Base BaseFacts FlashPackModel FlashSpec.

Definition ends (it : fp_item) : bool := match fst it with END_OF_STREAM => true | _ => false end.

Definition item_ok (it : fp_item) : Prop :=
  match fst it with
  | LITERAL => 0 <= snd it < 256
  | COPY_TWO | COPY_THREE => 1 <= snd it <= 127
  | COPY_MANY => 1 <= snd it <= 255
  | SET_ADDRESS => 0 <= snd it < 65536
  | END_OF_STREAM => True
  end.

Definition run_item (st : unpacker) (it : fp_item) : unpacker :=
  let '(t, v) := it in
  match t with
  | LITERAL => put_byte st v
  | COPY_TWO => copy 2 (mkUnpacker (u_mem st) (u_addr st) v)
  | COPY_THREE => copy 3 (mkUnpacker (u_mem st) (u_addr st) v)
  | COPY_MANY => copy (Z.to_nat v) st
  | SET_ADDRESS => mkUnpacker (u_mem st) v (u_dist st)
  | END_OF_STREAM => st
  end.
Definition run_items (its : list fp_item) (st : unpacker) : unpacker := fold_left run_item its st.

(* the result of reading items in front of r *)
Fixpoint read_items (r : list Z) (its : list fp_item) (st : unpacker) : step :=
  match its with
  | [] => Next r st
  | it :: its => if ends it then Stop st else read_items r its (run_item st it)
  end.

Definition nonliteral (it : fp_item) : bool := negb (is_literal (fst it)).

Lemma unpack_item_bytes it r st : item_ok it ->
  unpack_item (nonliteral it) (item_bytes it ++ r) st = if ends it then Stop st else Next r (run_item st it).
Proof.
  destruct it as [t v]. unfold item_ok, nonliteral, ends, item_bytes, run_item. cbn [fst snd].
  destruct t; cbn [is_literal negb app unpack_item]; intros H.
  - unfold u8. rewrite Z.mod_small by lia. reflexivity.
  - unfold u8. rewrite Z.shiftl_mul_pow2 by lia. change (2 ^ 1) with 2. rewrite Z.mod_small by lia.
    replace (2 <=? (128 - v) * 2) with true by lia. replace (((128 - v) * 2) mod 2) with 0 by lia. replace (128 - (128 - v) * 2 / 2) with v by lia. reflexivity.
  - unfold u8. rewrite Z.shiftl_mul_pow2 by lia. change (2 ^ 1) with 2. rewrite Z.mod_small by lia.
    replace (2 <=? (128 - v) * 2 + 1) with true by lia. replace (((128 - v) * 2 + 1) mod 2) with 1 by lia. replace (128 - ((128 - v) * 2 + 1) / 2) with v by lia. reflexivity.
  - change (2 <=? 1) with false. change (1 =? 1) with true. cbn iota. unfold u8. rewrite Z.mod_small by lia. replace (v =? 0) with false by lia. reflexivity.
  - change (2 <=? 0) with false. change (0 =? 1) with false. cbn iota. unfold u8. rewrite Z.shiftr_div_pow2 by lia. change (2 ^ 8) with 256.
    replace ((256 * (((v - 128) / 256) mod 256) + (v - 128) mod 256 + 128) mod 65536) with v by lia. reflexivity.
  - reflexivity.
Qed.

Lemma unpack_items_read its : forall pad r st, Forall item_ok its -> pad = [] \/ existsb ends its = true ->
  unpack_items (map nonliteral its ++ pad) (flat_map item_bytes its ++ r) st = read_items r its st.
Proof.
  induction its as [|it its IH]; intros pad r st H P.
  - destruct P as [->|P]; [reflexivity|discriminate].
  - cbn [map app flat_map unpack_items read_items]. rewrite <- app_assoc, unpack_item_bytes by exact (Forall_inv H).
    destruct (ends it) eqn:E; [reflexivity|]. apply IH; [exact (Forall_inv_tail H)|]. cbn [existsb] in P. rewrite E in P. exact P.
Qed.

(* ------------------------------------------------------------------ *)
(* flags of a group                                                    *)
Definition byte_of (b7 b6 b5 b4 b3 b2 b1 b0 : bool) : Z :=
  128 * Z.b2z b7 + 64 * Z.b2z b6 + 32 * Z.b2z b5 + 16 * Z.b2z b4 + 8 * Z.b2z b3 + 4 * Z.b2z b2 + 2 * Z.b2z b1 + Z.b2z b0.

Lemma bits_byte_of b7 b6 b5 b4 b3 b2 b1 b0 : bits (byte_of b7 b6 b5 b4 b3 b2 b1 b0) = [b7; b6; b5; b4; b3; b2; b1; b0].
Proof. destruct b7, b6, b5, b4, b3, b2, b1, b0; reflexivity. Qed.

Lemma byte_of_range b7 b6 b5 b4 b3 b2 b1 b0 : 0 <= byte_of b7 b6 b5 b4 b3 b2 b1 b0 < 256.
Proof. unfold byte_of. destruct b7, b6, b5, b4, b3, b2, b1, b0; cbn [Z.b2z]; lia. Qed.

Lemma byte_of_zero b7 b6 b5 b4 b3 b2 b1 b0 : byte_of b7 b6 b5 b4 b3 b2 b1 b0 = 0 -> [b7; b6; b5; b4; b3; b2; b1; b0] = repeat false 8.
Proof. unfold byte_of. destruct b7, b6, b5, b4, b3, b2, b1, b0; cbn [Z.b2z]; intros H; try lia. reflexivity. Qed.

(* flag k of a list of items: false past the end *)
Definition flag_at (its : list fp_item) (k : nat) : bool := nth k (map nonliteral its) false.

Lemma inner_byte its :
  inner_flags_loop 8 1 its = byte_of (flag_at its 0) (flag_at its 1) (flag_at its 2) (flag_at its 3) (flag_at its 4) (flag_at its 5) (flag_at its 6) (flag_at its 7).
Proof.
  assert (S : forall n f l, inner_flags_loop (S n) f l = inner_flags_loop n (2 * f + Z.b2z (flag_at l 0)) (tl l)).
  { intros n f [|[t v] l]; cbn [inner_flags_loop tl]; unfold flag_at; cbn [map nth Z.b2z].
    - now rewrite Z.add_0_r.
    - unfold nonliteral. cbn [fst]. now destruct (is_literal t). }
  assert (T : forall l k, flag_at (tl l) k = flag_at l (Datatypes.S k)).
  { intros [|x l] k; unfold flag_at; cbn [tl map nth]; [now destruct k|reflexivity]. }
  rewrite !S. repeat rewrite T. set (a := flag_at its 0). set (b := flag_at its 1). set (c := flag_at its 2). set (d := flag_at its 3).
  set (e := flag_at its 4). set (f := flag_at its 5). set (g := flag_at its 6). set (h := flag_at its 7).
  cbn [inner_flags_loop]. clearbody a b c d e f g h. destruct a, b, c, d, e, f, g, h; reflexivity.
Qed.

(* the flags of eight items, padded *)
Definition flags8 (its : list fp_item) : list bool := map (flag_at its) (seq 0 8).

Lemma inner_bits its : bits (inner_flags_loop 8 1 its) = flags8 its.
Proof. rewrite inner_byte, bits_byte_of. reflexivity. Qed.

Lemma inner_range its : 0 <= inner_flags_loop 8 1 its < 256.
Proof. rewrite inner_byte. apply byte_of_range. Qed.

Lemma inner_zero its : inner_flags_loop 8 1 its = 0 -> repeat false 8 = flags8 its.
Proof. rewrite inner_byte. intros H. apply byte_of_zero in H. symmetry. exact H. Qed.

Lemma flags8_pad its : exists pad, flags8 its = map nonliteral (firstn 8 its) ++ pad /\ ((8 <= length its)%nat -> pad = []).
Proof.
  unfold flags8, flag_at. exists (repeat false (8 - length its)).
  do 8 (destruct its as [|? its]; [cbn; split; [reflexivity|lia]|]). cbn. split; reflexivity.
Qed.

(* ------------------------------------------------------------------ *)
(* groups                                                              *)
Lemma land_7 i : Z.land i 7 = i mod 8.
Proof. change 7 with (Z.ones 3). rewrite Z.land_ones by lia. reflexivity. Qed.

Lemma put_rest items j : forall rest i, (i mod 8 = 8 - Z.of_nat j) -> (j < 8)%nat ->
  put_items_loop items rest i = flat_map item_bytes (firstn j rest) ++ put_items_loop items (skipn j rest) (i + Z.of_nat j).
Proof.
  induction j as [|j IH]; intros rest i Hi Hj.
  - cbn [firstn flat_map skipn app]. f_equal; lia.
  - destruct rest as [|it r]; [reflexivity|]. cbn [put_items_loop firstn flat_map skipn]. rewrite land_7.
    replace (i mod 8 =? 0) with false by lia. cbn [andb app]. rewrite <- app_assoc. f_equal.
    destruct (Nat.eq_dec j 0) as [->|Nj].
    + cbn [firstn flat_map skipn app]. f_equal; lia.
    + rewrite (IH r (i + 1)) by lia. f_equal. f_equal; lia.
Qed.

Definition group_head (items : list fp_item) (i : Z) : list Z := if inner_flags items i =? 0 then [] else [inner_flags items i].

Lemma put_group items rest i : i mod 8 = 0 -> rest <> [] ->
  put_items_loop items rest i = group_head items i ++ flat_map item_bytes (firstn 8 rest) ++ put_items_loop items (skipn 8 rest) (i + 8).
Proof.
  intros Hi N. destruct rest as [|it r]; [congruence|]. cbn [put_items_loop]. rewrite land_7. replace (i mod 8 =? 0) with true by lia. cbn [andb].
  unfold group_head. assert (R : u8 (inner_flags items i) = inner_flags items i).
  { unfold u8, inner_flags. apply Z.mod_small, inner_range. }
  rewrite R. rewrite (put_rest items 7 r (i + 1)) by lia.
  replace (i + 1 + Z.of_nat 7) with (i + 8) by lia.
  change (firstn 8 (it :: r)) with (it :: firstn 7 r). change (skipn 8 (it :: r)) with (skipn 7 r). cbn [flat_map].
  destruct (inner_flags items i =? 0); cbn [negb]; rewrite <- ?app_assoc; reflexivity.
Qed.

Lemma read_app r a : forall b st, existsb ends a = false -> read_items r (a ++ b) st = read_items r b (run_items a st).
Proof.
  induction a as [|it a IH]; intros b st H; [reflexivity|]. cbn [existsb] in H. apply orb_false_iff in H. destruct H as [H1 H2].
  cbn [app read_items]. rewrite H1. now apply IH.
Qed.

Lemma read_stop r r' a : forall b st, existsb ends a = true -> read_items r (a ++ b) st = read_items r' a st.
Proof.
  induction a as [|it a IH]; intros b st H; [discriminate|]. cbn [existsb app read_items] in *. destruct (ends it); [reflexivity|]. now apply IH.
Qed.

Lemma read_next r a st : existsb ends a = false -> read_items r a st = Next r (run_items a st).
Proof. intros H. rewrite <- (app_nil_r a) at 1. rewrite read_app by exact H. reflexivity. Qed.

(* one group of eight *)
Lemma unpack_group items i rest r st : Forall item_ok rest -> inner_flags items i = inner_flags_loop 8 1 rest ->
  (8 <= length rest)%nat \/ existsb ends (firstn 8 rest) = true ->
  (if negb (inner_flags items i =? 0) then match group_head items i ++ flat_map item_bytes (firstn 8 rest) ++ r with v :: s => unpack_items (bits v) s st | [] => Bad end
   else unpack_items (repeat false 8) (group_head items i ++ flat_map item_bytes (firstn 8 rest) ++ r) st)
  = read_items r (firstn 8 rest) st.
Proof.
  intros Ok E P. unfold group_head. rewrite E. destruct (flags8_pad rest) as (pad & F & Hp).
  assert (Q : pad = [] \/ existsb ends (firstn 8 rest) = true) by (destruct P as [P|P]; [left; now apply Hp|now right]).
  assert (Ok8 : Forall item_ok (firstn 8 rest)).
  { rewrite <- (firstn_skipn 8 rest) in Ok. apply Forall_app in Ok. apply Ok. }
  destruct (inner_flags_loop 8 1 rest =? 0) eqn:Z0; cbn [negb app].
  - rewrite (inner_zero rest) by lia. rewrite F. now apply unpack_items_read.
  - rewrite inner_bits, F. now apply unpack_items_read.
Qed.

Lemma unpack_groups_read items : forall k rest r st,
  rest = skipn (8 * (8 - k)) items -> (k <= 8)%nat -> (length items <= 64)%nat -> Forall item_ok rest ->
  (length items = 64)%nat \/ existsb ends rest = true ->
  unpack_groups (map (fun m => negb (inner_flags items (8 * Z.of_nat m) =? 0)) (seq (8 - k) k))
    (put_items_loop items rest (8 * Z.of_nat (8 - k)) ++ r) st = read_items r rest st.
Proof.
  induction k as [|k IH]; intros rest r st Er Hk Hl Ok P.
  - cbn [seq map unpack_groups]. assert (N : rest = []).
    { rewrite Er. apply skipn_all2. change (8 * (8 - 0))%nat with 64%nat. lia. }
    rewrite N. reflexivity.
  - cbn [seq map unpack_groups]. set (m := (8 - S k)%nat) in *. assert (Em : (8 - k = S m)%nat) by lia.
    assert (Nr : rest <> []).
    { intros E0. rewrite E0 in *. destruct P as [P|P]; [|discriminate]. apply (f_equal (@length _)) in Er. rewrite skipn_length in Er. cbn [length] in Er. lia. }
    rewrite put_group by (lia || exact Nr). rewrite <- !app_assoc.
    assert (EI : inner_flags items (8 * Z.of_nat m) = inner_flags_loop 8 1 rest).
    { unfold inner_flags. rewrite Er. replace (Z.to_nat (8 * Z.of_nat m)) with (8 * m)%nat by lia. reflexivity. }
    assert (L8 : (8 <= length rest)%nat \/ existsb ends (firstn 8 rest) = true).
    { destruct (Nat.le_gt_cases 8 (length rest)) as [L|L]; [now left|right]. rewrite firstn_all2 by lia. destruct P as [P|P]; [|exact P].
      exfalso. apply (f_equal (@length _)) in Er. rewrite skipn_length in Er. lia. }
    rewrite (unpack_group items (8 * Z.of_nat m) rest _ st Ok EI L8).
    assert (Er' : skipn 8 rest = skipn (8 * (8 - k)) items).
    { rewrite Er, skipn_skipn_plus. f_equal; lia. }
    replace (8 * Z.of_nat m + 8) with (8 * Z.of_nat (8 - k)) by lia.
    destruct (existsb ends (firstn 8 rest)) eqn:E8.
    + rewrite <- (firstn_skipn 8 rest) at 3. rewrite (read_stop r (put_items_loop items (skipn 8 rest) (8 * Z.of_nat (8 - k)) ++ r) _ _ _ E8).
      assert (RS : exists s', read_items (put_items_loop items (skipn 8 rest) (8 * Z.of_nat (8 - k)) ++ r) (firstn 8 rest) st = Stop s').
      { revert E8. generalize (firstn 8 rest) as l. intros l. revert st. induction l as [|it l IHl]; intros st E8; [discriminate|].
        cbn [existsb read_items] in *. destruct (ends it); [eauto|]. now apply IHl. }
      destruct RS as (s' & ->). reflexivity.
    + rewrite read_next by exact E8. rewrite <- Em.
      rewrite IH; [|exact Er'|lia|exact Hl| |].
      * rewrite <- (firstn_skipn 8 rest) at 3. now rewrite read_app.
      * rewrite <- (firstn_skipn 8 rest) in Ok. apply Forall_app in Ok. apply Ok.
      * destruct P as [P|P]; [now left|right]. rewrite <- (firstn_skipn 8 rest), existsb_app, E8 in P. exact P.
Qed.

(* ------------------------------------------------------------------ *)
(* the byte of outer flags                                             *)
Lemma outer_byte items : (length items <= 64)%nat ->
  bits (outer_flags_loop 8 items 0 0) = map (fun m => negb (inner_flags items (8 * Z.of_nat m) =? 0)) (seq 0 8) /\ 0 <= outer_flags_loop 8 items 0 0 < 256.
Proof.
  intros Hl. set (f := fun m => negb (inner_flags items (8 * Z.of_nat m) =? 0)).
  assert (Z0 : forall i, 0 <= i -> len items <= i -> inner_flags items i = 0).
  { intros i Hi H. unfold inner_flags. rewrite skipn_all2 by (unfold len in H; lia). reflexivity. }
  assert (S : forall n m acc, outer_flags_loop (S n) items (8 * Z.of_nat m) acc =
      if 8 * Z.of_nat m <? len items then outer_flags_loop n items (8 * Z.of_nat (Datatypes.S m)) (if f m then Z.lor acc (Z.shiftr 128 (Z.of_nat m)) else acc) else acc).
  { intros n m acc. cbn [outer_flags_loop]. destruct (8 * Z.of_nat m <? len items); [|reflexivity].
    replace (8 * Z.of_nat m + 8) with (8 * Z.of_nat (Datatypes.S m)) by lia. unfold f.
    replace (Z.shiftr (8 * Z.of_nat m) 3) with (Z.of_nat m); [reflexivity|]. rewrite Z.shiftr_div_pow2 by lia. change (2 ^ 3) with 8. lia. }
  assert (G : forall n m acc, outer_flags_loop n items (8 * Z.of_nat m) acc =
      fold_left (fun acc m => if f m then Z.lor acc (Z.shiftr 128 (Z.of_nat m)) else acc) (seq m n) acc).
  { induction n as [|n IH]; intros m acc; [reflexivity|]. rewrite S. cbn [seq fold_left].
    destruct (8 * Z.of_nat m <? len items) eqn:E; [apply IH|].
    assert (Q : forall n k acc, (m <= k)%nat -> fold_left (fun acc m => if f m then Z.lor acc (Z.shiftr 128 (Z.of_nat m)) else acc) (seq k n) acc = acc).
    { clear IH acc n. induction n as [|n IH]; intros k acc Hk; [reflexivity|]. cbn [seq fold_left]. rewrite IH by lia.
      replace (f k) with false; [reflexivity|]. unfold f. rewrite Z0 by lia. reflexivity. }
    rewrite Q by lia. replace (f m) with false; [reflexivity|]. unfold f. rewrite Z0 by lia. reflexivity. }
  assert (O : outer_flags_loop 8 items 0 0 = fold_left (fun acc m => if f m then Z.lor acc (Z.shiftr 128 (Z.of_nat m)) else acc) (seq 0 8) 0) by exact (G 8%nat 0%nat 0).
  rewrite O. clear O G S. clearbody f.
  change (seq 0 8) with [0%nat; 1%nat; 2%nat; 3%nat; 4%nat; 5%nat; 6%nat; 7%nat]. cbn [fold_left map].
  destruct (f 0%nat), (f 1%nat), (f 2%nat), (f 3%nat), (f 4%nat), (f 5%nat), (f 6%nat), (f 7%nat); vm_compute; (split; [reflexivity|split; congruence]).
Qed.

(* a chunk of up to 64 items *)
Definition chunk_bytes (items : list fp_item) : list Z := u8 (outer_flags_loop 8 items 0 0) :: put_items_loop items items 0.

Lemma unpack_chunk items r st : (length items <= 64)%nat -> Forall item_ok items -> (length items = 64)%nat \/ existsb ends items = true ->
  unpack_groups (bits (u8 (outer_flags_loop 8 items 0 0))) (put_items_loop items items 0 ++ r) st = read_items r items st.
Proof.
  intros Hl Ok P. destruct (outer_byte items Hl) as [B R]. unfold u8. rewrite Z.mod_small by exact R. rewrite B.
  apply (unpack_groups_read items 8); try assumption; [reflexivity|lia].
Qed.

Lemma unpack_stream chunks : forall last r st n, (length chunks < n)%nat ->
  Forall (fun c => length c = 64%nat /\ Forall item_ok c /\ existsb ends c = false) chunks ->
  (length last <= 63)%nat -> Forall item_ok last -> existsb ends last = false ->
  unpack n (flat_map chunk_bytes chunks ++ chunk_bytes (last ++ [(END_OF_STREAM, 0)]) ++ r) st = Some (run_items (concat chunks ++ last) st).
Proof.
  induction chunks as [|c chunks IH]; intros last r st n Hn HC Hl Ok E.
  - destruct n as [|n]; [cbn [length] in Hn; lia|]. cbn [flat_map app concat]. unfold chunk_bytes. cbn [app unpack].
    assert (L64 : (length (last ++ [(END_OF_STREAM, 0%Z)]) <= 64)%nat) by (rewrite app_length; cbn [length]; lia).
    assert (OkL : Forall item_ok (last ++ [(END_OF_STREAM, 0)])) by (apply Forall_app; split; [exact Ok|repeat constructor]).
    rewrite (unpack_chunk (last ++ [(END_OF_STREAM, 0)]) r st L64 OkL) by (right; rewrite existsb_app; cbn [existsb ends fst]; apply orb_true_r).
    rewrite read_app by exact E. reflexivity.
  - destruct n as [|n]; [lia|]. pose proof (Forall_inv HC) as (L & OkC & EC). cbn [flat_map concat]. rewrite <- app_assoc. unfold chunk_bytes at 1. cbn [app unpack].
    rewrite unpack_chunk; [|lia|exact OkC|now left]. rewrite read_next by exact EC. rewrite IH; [|cbn [length] in Hn; lia|exact (Forall_inv_tail HC)|assumption..].
    unfold run_items. rewrite <- app_assoc, !fold_left_app. reflexivity.
Qed.
