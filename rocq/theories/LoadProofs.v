(* The memory after ASAP_Load *)
From Verif Require Import Base BaseFacts Loop MemModel InfoModel NativeModel InfoSpec InfoProofs NativeSpec SapSpec NativeProofs NativeLoadProofs Resources
  WriterModel WindowSpec MoveSpec MoveSave FlashSpec MachineModel PlayModel SaveProofs LoadSpec.

(* ---- stores ---- *)
Lemma ld_st_list m a l b : 0 <= a -> 0 <= b -> ld (st_list m a l) b = if (a <=? b) && (b <? a + len l) then at_ l (b - a) else ld m b.
Proof.
  revert m a. induction l as [|v l IH]; intros m a Ha Hb; cbn [st_list].
  { change (len (@nil Z)) with 0. destruct ((a <=? b) && (b <? a + 0)) eqn:E; [lia|reflexivity]. }
  rewrite len_cons. pose proof (len_nonneg l). rewrite IH by lia. destruct (Z.eqb_spec b a) as [->|N].
  - replace ((a + 1 <=? a) && (a <? a + 1 + len l)) with false by lia. replace ((a <=? a) && (a <? a + (1 + len l))) with true by lia.
    replace (a - a) with 0 by lia. now rewrite ld_st_same, at_cons_0.
  - destruct ((a + 1 <=? b) && (b <? a + 1 + len l)) eqn:E.
    + replace ((a <=? b) && (b <? a + (1 + len l))) with true by lia. rewrite at_cons_S by lia. f_equal. lia.
    + replace ((a <=? b) && (b <? a + (1 + len l))) with false by lia. apply ld_st_other; lia.
Qed.

Lemma wr_list_inv m a l m' : wr_list m a l = Ok m' -> 0 <= a /\ a + len l <= 65536 /\ m' = st_list m a l.
Proof. unfold wr_list. destruct ((0 <=? a) && (a + len l <=? 65536)) eqn:E; [|discriminate]. intros H. injection H as <-. split; [lia|]. split; [lia|reflexivity]. Qed.

Lemma word_bytes v : 0 <= v < 65536 -> bytes (word v).
Proof. intros H. unfold word, bytes. repeat constructor; unfold byte; lia. Qed.
Lemma len_word v : len (word v) = 2. Proof. reflexivity. Qed.

(* ---- the blocks of a SAP file ---- *)
Definition has_image (m : mem) (im : image) : Prop := forall a, 0 <= a < 65536 -> ld m a = im a.

Lemma load_ext bs : forall im1 im2, (forall a, 0 <= a < 65536 -> im1 a = im2 a) -> forall a, 0 <= a < 65536 -> load im1 bs a = load im2 bs a.
Proof.
  induction bs as [|[[mark start] data] r IH]; intros im1 im2 H a Ha; cbn [load]; [now apply H|].
  apply IH; [|exact Ha]. intros b Hb. destruct (_ && _); [reflexivity|now apply H].
Qed.

Lemma image_store m im start data : 0 <= start -> start + len data <= 65536 -> has_image m im ->
  has_image (st_list m start data) (fun a => if (start <=? a) && (a <=? start + len data - 1) then at_ data (a - start) else im a).
Proof.
  intros H1 H2 Hm a Ha. rewrite ld_st_list by lia.
  destruct ((start <=? a) && (a <? start + len data)) eqn:E.
  - now replace ((start <=? a) && (a <=? start + len data - 1)) with true by lia.
  - replace ((start <=? a) && (a <=? start + len data - 1)) with false by lia. now apply Hm.
Qed.

(* one iteration, the file seen from the current index *)
Lemma word_in f h v t : f = h ++ word v ++ t -> 0 <= v < 65536 -> get_word f (len h) = Ok v.
Proof.
  intros -> Hv. pose proof (len_nonneg h). pose proof (len_nonneg t).
  rewrite get_word_ok by first [lia|rewrite !len_app, len_word; lia]. f_equal. unfold file_word.
  rewrite (at_app2 h _ (len h)), (at_app2 h _ (len h + 1)) by lia. replace (len h - len h) with 0 by lia. replace (len h + 1 - len h) with 1 by lia.
  unfold word. cbn [app]. rewrite at_cons_0, at_cons_S by lia. change (1 - 1) with 0. rewrite at_cons_0. lia.
Qed.

Lemma load_block_step f h start data t m : f = h ++ word start ++ word (start + len data - 1) ++ data ++ t ->
  0 <= start -> 0 < len data -> start + len data <= 65536 ->
  load_block f (len h, m) =
    if len t =? 0 then leave (st_list m start data)
    else continue_ ((if (7 <=? len t) && (at_ t 0 =? 255) && (at_ t 1 =? 255) then len h + 4 + len data + 2 else len h + 4 + len data), st_list m start data).
Proof.
  intros Ef H1 H2 H3. pose proof (len_nonneg h) as Lh. pose proof (len_nonneg t) as Lt.
  assert (L : len f = len h + 4 + len data + len t) by (rewrite Ef, !len_app, !len_word; lia).
  unfold load_block. replace (len h + 5 <=? len f) with true by lia.
  rewrite (word_in f h start _ Ef) by lia. cbn [bind].
  assert (E2 : f = (h ++ word start) ++ word (start + len data - 1) ++ data ++ t) by (rewrite <- app_assoc; exact Ef).
  assert (E3 : get_word f (len h + 2) = Ok (start + len data - 1)).
  { rewrite <- (word_in f _ _ _ E2) by lia. rewrite len_app, len_word. reflexivity. }
  rewrite E3. cbn [bind]. cbv zeta. replace (start + len data - 1 + 1 - start) with (len data) by lia.
  replace ((len data <=? 0) || (len f <? len h + len data)) with false by lia.
  rewrite get_range_ok by lia. cbn [bind].
  assert (E4 : slice f (len h + 4) (len h + 4 + len data) = data).
  { rewrite E2, app_assoc. rewrite slice_app_r by (rewrite !len_app, !len_word; lia). rewrite !len_app, !len_word.
    rewrite slice_app_l by lia. replace (len h + 4 - (len h + 2 + 2)) with 0 by lia. replace (len h + 4 + len data - (len h + 2 + 2)) with (len data) by lia. apply slice_full. }
  rewrite E4. unfold wr_list. replace ((0 <=? start) && (start + len data <=? 65536)) with true by lia. cbn [bind].
  replace (len h + 4 + len data =? len f) with (len t =? 0) by lia.
  destruct (len t =? 0) eqn:E0; [reflexivity|].
  assert (EA : forall k, 0 <= k -> at_ f (len h + 4 + len data + k) = at_ t k).
  { intros k Hk. rewrite E2, app_assoc, app_assoc. rewrite at_app2 by (rewrite !len_app, !len_word; lia). f_equal. rewrite !len_app, !len_word. lia. }
  destruct (Z.leb_spec 7 (len t)) as [C|C].
  - replace (len h + 4 + len data + 7 <=? len f) with true by lia.
    rewrite get_ok by lia. cbn [bind]. replace (at_ f (len h + 4 + len data)) with (at_ t 0) by (rewrite <- EA by lia; f_equal; lia).
    cbn [andb]. destruct (at_ t 0 =? 255); cbn [andb]; [|reflexivity].
    rewrite get_ok by lia. cbn [bind]. rewrite EA by lia. destruct (at_ t 1 =? 255); reflexivity.
  - replace (len h + 4 + len data + 7 <=? len f) with false by lia. reflexivity.
Qed.

Lemma block_front (b : block) : block_bytes b = (if fst (fst b) then [255; 255] else []) ++ block_bytes (false, snd (fst b), snd b).
Proof. destruct b as [[[|] start] data]; reflexivity. Qed.

(* FF FF is skipped exactly where it is written *)
Lemma mark_seen b rest : proper_block b ->
  (7 <=? len (block_bytes b ++ rest)) && (at_ (block_bytes b ++ rest) 0 =? 255) && (at_ (block_bytes b ++ rest) 1 =? 255) = fst (fst b).
Proof.
  destruct b as [[mark start] data]. intros (H1 & H2 & H3 & H4 & H5). cbn [fst snd]. pose proof (len_nonneg rest). unfold block_bytes, word. destruct mark; cbn [app].
  - rewrite !len_cons, !len_app. replace (7 <=? _) with true by lia. reflexivity.
  - rewrite at_cons_0, at_cons_S by lia. change (1 - 1) with 0. rewrite at_cons_0.
    assert (start <> 65535) by (intros E; specialize (H5 E); discriminate). destruct (7 <=? _); cbn [andb]; [|reflexivity].
    apply not_true_is_false. intros E. apply andb_prop in E. destruct E as [E1 E2]. lia.
Qed.

Lemma placed_of_proper b : proper_block b -> placed_block b.
Proof. destruct b as [[mark start] data]. unfold proper_block, placed_block. tauto. Qed.

Lemma len_block_pos (b : block) : placed_block b -> 5 <= len (block_bytes b).
Proof.
  destruct b as [[mark start] data]. intros (H1 & H2 & H3 & H4). unfold block_bytes, word. destruct mark; cbn [app]; rewrite !len_cons; lia.
Qed.

Lemma load_blocks_spelled f : forall rest n h start data m im,
  f = h ++ block_bytes (false, start, data) ++ executable rest -> placed_block (false, start, data) -> Forall proper_block rest -> has_image m im ->
  len (executable rest) <= Z.of_nat n ->
  exists m', loop n (load_block f) (len h, m) = Ok m' /\ has_image m' (load im ((false, start, data) :: rest)).
Proof.
  induction rest as [|b rest IH]; intros n h start data m im Ef (H1 & H2 & H3 & H4) Hr Hm Hn.
  - cbn [executable flat_map] in Ef. exists (st_list m start data).
    assert (Ef' : f = h ++ word start ++ word (start + len data - 1) ++ data ++ []) by (rewrite Ef; unfold block_bytes; cbn [app]; rewrite <- !app_assoc; reflexivity).
    assert (X : load_block f (len h, m) = leave (st_list m start data)) by (rewrite (load_block_step f h start data [] m Ef' H1 H2 H3); reflexivity).
    split; [destruct n; cbn [loop]; rewrite X; reflexivity|]. cbn [load]. now apply image_store.
  - inversion Hr as [|? ? Hb Hr']; subst. pose proof (len_block_pos b (placed_of_proper b Hb)) as Lb.
    set (t := executable (b :: rest)) in *. assert (Et : t = block_bytes b ++ executable rest) by reflexivity.
    assert (Lt : len t = len (block_bytes b) + len (executable rest)) by (rewrite Et, len_app; reflexivity). pose proof (len_nonneg (executable rest)).
    set (f := h ++ block_bytes (false, start, data) ++ t) in *.
    assert (Ef' : f = h ++ word start ++ word (start + len data - 1) ++ data ++ t) by (unfold f, block_bytes; cbn [app]; rewrite <- !app_assoc; reflexivity).
    destruct n as [|n]; [lia|]. cbn [loop]. rewrite (load_block_step f h start data t m Ef' H1 H2 H3). replace (len t =? 0) with false by lia.
    cbn [bind continue_]. rewrite Et. rewrite (mark_seen b _ Hb).
    set (h' := h ++ block_bytes (false, start, data) ++ (if fst (fst b) then [255; 255] else [])).
    assert (Lh : (if fst (fst b) then len h + 4 + len data + 2 else len h + 4 + len data) = len h').
    { unfold h', block_bytes, word. cbn [app]. rewrite !len_app, !len_cons, len_app. destruct (fst (fst b)); [change (len [255; 255]) with 2|change (len (@nil Z)) with 0]; lia. }
    rewrite Lh. destruct (IH n h' (snd (fst b)) (snd b) (st_list m start data) (fun a => if (start <=? a) && (a <=? start + len data - 1) then at_ data (a - start) else im a))
      as (m' & E & I).
    + unfold f, h'. rewrite Et, (block_front b). rewrite <- !app_assoc. reflexivity.
    + pose proof (placed_of_proper b Hb) as P. destruct b as [[mk s] d]. exact P.
    + exact Hr'.
    + now apply image_store.
    + lia.
    + exists m'. split; [exact E|]. cbn [load]. destruct b as [[mk s] d]. exact I.
Qed.

(* and the other way: what is loaded is spelled in the file *)
Lemma word_of_word f i : bytes f -> 0 <= i -> i + 1 < len f -> slice f i (i + 2) = word (file_word f i).
Proof.
  intros Hb H1 H2. rewrite slice_cons by lia. replace (i + 2) with (i + 1 + 1) by lia. rewrite slice_cons by lia. rewrite slice_nil.
  pose proof (at_byte' f i Hb). pose proof (at_byte' f (i + 1) Hb). unfold word, file_word, byte in *.
  assert (E1 : (at_ f i + 256 * at_ f (i + 1)) mod 256 = at_ f i) by lia. assert (E2 : (at_ f i + 256 * at_ f (i + 1)) / 256 = at_ f (i + 1)) by lia.
  now rewrite E1, E2.
Qed.

Lemma get_word_inv' f i v : get_word f i = Ok v -> 0 <= i /\ i + 1 < len f /\ v = file_word f i.
Proof.
  intros E. assert (R : 0 <= i /\ i + 1 < len f).
  { unfold get_word in E. apply bind_ok in E. destruct E as (a & E1 & E). apply bind_ok in E. destruct E as (b & E2 & _). apply get_inv in E1. apply get_inv in E2. lia. }
  rewrite get_word_ok in E by lia. split; [lia|]. split; [lia|congruence].
Qed.

Lemma load_blocks_only f : bytes f -> forall n i m im m', 0 <= i -> has_image m im -> loop n (load_block f) (i, m) = Ok m' ->
  exists (b : block) (bs : list block), fst (fst b) = false /\ Forall placed_block (b :: bs) /\ slice f i (len f) = executable (b :: bs) /\ has_image m' (load im (b :: bs)).
Proof.
  intros Hb. induction n as [|n IH]; intros i m im m' Hi Hm E.
  all: cbn [loop] in E; apply bind_ok in E; destruct E as (r & Es & E); unfold load_block in Es;
    destruct (Z.leb_spec (i + 5) (len f)) as [L|L]; [|discriminate Es];
    apply bind_ok in Es; destruct Es as (start & E1 & Es); apply bind_ok in Es; destruct Es as (last & E2 & Es); cbv zeta in Es;
    destruct ((last + 1 - start <=? 0) || (len f <? i + (last + 1 - start))) eqn:C; [discriminate Es|];
    apply bind_ok in Es; destruct Es as (d & E3 & Es); apply bind_ok in Es; destruct Es as (m1 & E4 & Es);
    apply get_word_inv' in E1; apply get_word_inv' in E2; apply get_range_inv in E3; apply wr_list_inv in E4;
    destruct E1 as (_ & _ & E1), E2 as (_ & _ & E2), E3 as (R1 & R2 & R3 & E3), E4 as (W1 & W2 & E4);
    assert (Ld : len d = last + 1 - start) by (rewrite E3, len_slice by lia; lia);
    set (blockLen := last + 1 - start) in *; assert (B0 : 0 < blockLen) by lia.
  all: assert (PB : placed_block (false, start, d)) by (cbn; repeat split; try lia; rewrite E3; now apply bytes_slice).
  all: assert (SB : slice f i (i + 4 + blockLen) = block_bytes (false, start, d)).
  1,3: unfold block_bytes; cbn [app]; rewrite <- (slice_cat f i (i + 2)) by lia; rewrite <- (slice_cat f (i + 2) (i + 4)) by lia;
      rewrite (word_of_word f i Hb) by lia; replace (i + 4) with (i + 2 + 2) at 1 by lia; rewrite (word_of_word f (i + 2) Hb) by lia;
      rewrite <- E1, <- E2, <- E3; replace (start + len d - 1) with last by (unfold blockLen in *; lia); reflexivity.
  all: assert (HM : has_image m1 (fun a => if (start <=? a) && (a <=? start + len d - 1) then at_ d (a - start) else im a)) by (rewrite E4; apply image_store; assumption || lia).
  all: destruct (Z.eqb_spec (i + 4 + blockLen) (len f)) as [Q|Q].
  1,3: unfold leave in Es; injection Es as <-; injection E as <-; exists (false, start, d), []; split; [reflexivity|]; split; [repeat constructor; try exact PB; apply PB|];
      split; [rewrite <- Q, SB; cbn [executable flat_map]; symmetry; apply app_nil_r|exact HM].
  all: apply bind_ok in Es; destruct Es as (ff & EF & Es); unfold continue_ in Es; injection Es as <-. { discriminate E. }
  assert (FF : ff = true -> i + 4 + blockLen + 7 <= len f /\ at_ f (i + 4 + blockLen) = 255 /\ at_ f (i + 4 + blockLen + 1) = 255).
  { intros ->. destruct (Z.leb_spec (i + 4 + blockLen + 7) (len f)) as [L7|L7]; [|discriminate EF]. apply bind_ok in EF. destruct EF as (a & G1 & EF). apply get_inv in G1.
    destruct (Z.eqb_spec a 255); [|discriminate EF]. apply bind_ok in EF. destruct EF as (b & G2 & EF). apply get_inv in G2. injection EF as EF. destruct G1 as [_ G1], G2 as [_ G2]. repeat split; lia. }
  destruct (IH (if ff then i + 4 + blockLen + 2 else i + 4 + blockLen) m1 _ m' ltac:(destruct ff; lia) HM E) as ([[mk s2] d2] & bs & F1 & F2 & F3 & F4).
  cbn [fst] in F1. subst mk. exists (false, start, d), ((ff, s2, d2) :: bs). split; [reflexivity|]. split; [constructor; [exact PB|inversion F2; constructor; assumption]|].
  split; [|exact F4].
  change (executable ((false, start, d) :: (ff, s2, d2) :: bs)) with (block_bytes (false, start, d) ++ block_bytes (ff, s2, d2) ++ executable bs).
  change (executable ((false, s2, d2) :: bs)) with (block_bytes (false, s2, d2) ++ executable bs) in F3.
  rewrite (block_front (ff, s2, d2)). cbn [fst snd]. rewrite <- app_assoc, <- F3, <- SB.
  destruct ff; cbn [app].
  - destruct (FF eq_refl) as (L7 & A1 & A2). set (p := i + 4 + blockLen) in *.
    assert (X : slice f p (len f) = 255 :: 255 :: slice f (p + 2) (len f)).
    { rewrite slice_cons by lia. rewrite slice_cons by lia. rewrite A1, A2. now replace (p + 1 + 1) with (p + 2) by lia. }
    rewrite <- X. symmetry. apply slice_cat; lia.
  - symmetry. apply slice_cat; lia.
Qed.

(* ---- ASAP_Load of a SAP file ---- *)
Lemma sap_or_native fuel self name f inf : bytes f -> len (i_songPos self) = 32 -> api_load fuel self name f = Ok inf ->
  (player_routine inf = None /\ sap_loaded f inf) \/ (exists ext, In ext native_exts /\ load_post ext inf).
Proof.
  intros Hb Hp E. pose proof (api_load_any_fuel (fun _ => True) fuel self name f (any_post f) (load_any (fun _ => True) _ self name f I I Hb Hp (plenty_enough fuel f))) as W.
  rewrite E in W. cbn [wpg] in W. destruct W as [W|W]; [left|right; exact W]. split; [|exact W]. pose proof (sl_type _ _ W) as T. unfold player_routine.
  destruct (i_type inf); try contradiction; reflexivity.
Qed.

Definition sap_type (t : module_type) : Prop := In t [SAP_B; SAP_C; SAP_D; SAP_S].

Lemma native_not_sap ext inf : load_post ext inf -> ~ sap_type (i_type inf).
Proof.
  intros (_ & T & _) S. cbn in S. unfold native_type in T.
  destruct S as [S|[S|[S|[S|[]]]]]; rewrite <- S in T; intuition discriminate.
Qed.

Lemma sap_file_loaded fuel name f s inf : bytes f -> len (i_songPos (m_info s)) = 32 -> api_load fuel (m_info s) name f = Ok inf -> sap_type (i_type inf) ->
  sap_loaded f inf /\ asap_load fuel name f s = (m <- load_blocks f (i_headerLen inf + 2) mem0 ;; Ok (set_m_memory m (set_m_info inf s))).
Proof.
  intros Hb Hp E S. destruct (sap_or_native _ _ _ _ _ Hb Hp E) as [[P W]|(ext & Hin & W)]; [|exfalso; exact (native_not_sap _ _ W S)].
  split; [exact W|]. unfold asap_load. rewrite E. cbn [bind]. rewrite P. reflexivity.
Qed.

Lemma image0 : has_image mem0 (fun _ => 0).
Proof. intros a _. apply ld_mem0. Qed.

Lemma sap_loads fuel name head bs s inf : bytes (sap_file head bs) -> len (i_songPos (m_info s)) = 32 ->
  api_load fuel (m_info s) name (sap_file head bs) = Ok inf -> sap_type (i_type inf) -> i_headerLen inf = len head -> sap_blocks bs ->
  exists s', asap_load fuel name (sap_file head bs) s = Ok s' /\ m_info s' = inf /\ forall a, 0 <= a < 65536 -> ld (m_memory s') a = load (fun _ => 0) bs a.
Proof.
  intros Hb Hp E S HL HB. destruct (sap_file_loaded _ _ _ _ _ Hb Hp E S) as [_ ->]. destruct bs as [|[[mark start] data] rest]; [contradiction|].
  destruct HB as (-> & P & R). unfold load_blocks. rewrite loopZ_loop.
  destruct (load_blocks_spelled (sap_file head ((false, start, data) :: rest)) rest (Nat.pred (Pos.to_nat (Z.to_pos (len (sap_file head ((false, start, data) :: rest)) + 1))))
    (head ++ [255; 255]) start data mem0 (fun _ => 0)) as (m' & E' & I).
  - unfold sap_file. cbn [executable flat_map]. now rewrite <- app_assoc.
  - exact P.
  - exact R.
  - apply image0.
  - pose proof (len_nonneg (sap_file head ((false, start, data) :: rest))) as L0. pose proof (len_nonneg head). pose proof (len_nonneg (executable rest)).
    pose proof (len_block_pos _ P) as L1. assert (L2 : len (sap_file head ((false, start, data) :: rest)) = len head + 2 + (len (block_bytes (false, start, data)) + len (executable rest))).
    { unfold sap_file. cbn [executable flat_map]. rewrite !len_app. change (len [255; 255]) with 2. fold (executable rest). lia. }
    lia.
  - rewrite len_app in E'. change (len [255; 255]) with 2 in E'. rewrite HL. match goal with |- context [bind ?x _] => change x with (loop (Nat.pred (Pos.to_nat (Z.to_pos (len (sap_file head ((false, start, data) :: rest)) + 1)))) (load_block (sap_file head ((false, start, data) :: rest))) (len head + 2, mem0)) end. rewrite E'. cbn [bind]. eexists. split; [reflexivity|]. split; [reflexivity|exact I].
Qed.

Lemma sap_only fuel name f s s' : bytes f -> len (i_songPos (m_info s)) = 32 -> asap_load fuel name f s = Ok s' -> sap_type (i_type (m_info s')) ->
  exists (head : list Z) (bs : list block), f = sap_file head bs /\ len head = i_headerLen (m_info s') /\ bs <> [] /\ Forall placed_block bs /\
    forall a, 0 <= a < 65536 -> ld (m_memory s') a = load (fun _ => 0) bs a.
Proof.
  intros Hb Hp E S. assert (X : exists inf, api_load fuel (m_info s) name f = Ok inf).
  { unfold asap_load in E. apply bind_ok in E. destruct E as (inf & E & _). now exists inf. }
  destruct X as [inf EL]. destruct (sap_or_native _ _ _ _ _ Hb Hp EL) as [[P W]|(ext & Hin & W)].
  - assert (ST : sap_type (i_type inf)) by (unfold player_routine in P; destruct (i_type inf); try discriminate P; cbn; tauto).
    destruct (sap_file_loaded _ _ _ _ _ Hb Hp EL ST) as [_ E2]. rewrite E2 in E. apply bind_ok in E. destruct E as (m' & E & E'). injection E' as <-.
    cbn [m_info m_memory set_m_memory set_m_info]. pose proof (sl_header _ _ W) as (H1 & H2 & H3 & H4). unfold load_blocks in E. rewrite loopZ_loop in E.
    destruct (load_blocks_only f Hb _ (i_headerLen inf + 2) mem0 (fun _ => 0) m' ltac:(lia) image0 E) as (b & bs & F1 & F2 & F3 & F4).
    exists (slice f 0 (i_headerLen inf)), (b :: bs). split; [|split; [rewrite len_slice by lia; lia|split; [discriminate|split; [exact F2|exact F4]]]].
    unfold sap_file. rewrite <- F3. set (h := i_headerLen inf) in *.
    assert (X : slice f h (len f) = 255 :: 255 :: slice f (h + 2) (len f)).
    { rewrite slice_cons by lia. rewrite slice_cons by lia. rewrite H3, H4. now replace (h + 1 + 1) with (h + 2) by lia. }
    cbn [app]. rewrite <- X. rewrite slice_cat by lia. symmetry. apply slice_full.
  - exfalso. apply (native_not_sap ext inf W). replace (i_type inf) with (i_type (m_info s')); [exact S|].
    unfold asap_load in E. rewrite EL in E. cbn [bind] in E. destruct (player_routine inf) as [r|].
    + apply bind_ok in E. destruct E as (p & _ & E). apply bind_ok in E. destruct E as (q & _ & E). cbv zeta in E. destruct (_ <=? _); [discriminate E|].
      apply bind_ok in E. destruct E as (x1 & _ & E). apply bind_ok in E. destruct E as (x2 & _ & E). apply bind_ok in E. destruct E as (x3 & _ & E). apply bind_ok in E. destruct E as (x4 & _ & E).
      assert (Q : s' = set_m_memory x4 (set_m_info (if i_player inf <? 0 then set_player p inf else inf) s)) by congruence. rewrite Q. cbn [m_info set_m_memory set_m_info]. destruct (_ <? 0); reflexivity.
    + apply bind_ok in E. destruct E as (x4 & _ & E). assert (Q : s' = set_m_memory x4 (set_m_info inf s)) by congruence. rewrite Q. reflexivity.
Qed.

(* ---- the addresses of a native module ---- *)
Ltac iff C E := match type of E with (if ?b then _ else _) = _ => destruct b eqn:C; [discriminate E|] end.
Lemma parse_module_env inf f inf' ext : bytes f -> parse_module inf f = Ok inf' -> (i_type inf = RMT -> ext = rmt_ext) -> enveloped ext f.
Proof.
  intros Hb E HR. unfold parse_module in E. apply bind_ok in E. destruct E as (m0 & G0 & E). apply bind_ok in E. destruct E as (m1 & G1 & E).
  apply get_inv in G0. apply get_inv in G1. destruct G0 as [_ ->], G1 as [_ ->].
  iff C1 E. apply bind_ok in E. destruct E as (a & G2 & E). apply bind_ok in E. destruct E as (z & G3 & E).
  apply get_word_inv' in G2. apply get_word_inv' in G3. destruct G2 as (_ & _ & ->), G3 as (_ & _ & ->).
  iff C2 E. cbv zeta in E. split; [lia|]. split; [lia|]. cbv zeta.
  destruct (Z.eqb_spec (6 + (file_word f 4 + 1 - file_word f 2)) (len f)) as [Q|Q]; [left; lia|].
  iff C3 E. right.
  assert (RT : i_type inf = RMT) by (destruct (i_type inf); (reflexivity || discriminate)).
  apply bind_ok in E. destruct E as (ia & G4 & E). apply get_word_inv' in G4. destruct G4 as (P4 & Q4 & ->). iff C4 E.
  apply bind_ok in E. destruct E as (il & G5 & E). apply get_word_inv' in G5. destruct G5 as (P5 & Q5 & ->). iff C5 E.
  replace (7 + file_word f 4 - file_word f 2) with (6 + (file_word f 4 + 1 - file_word f 2)) by lia.
  replace (8 + (file_word f 4 + 1 - file_word f 2)) with (6 + (file_word f 4 + 1 - file_word f 2) + 2) in * by lia.
  split; [now apply HR|]. lia.
Qed.

Lemma native_enveloped fuel self name ext f inf : In ext native_exts -> ext <> fc_ext -> named name ext -> bytes f ->
  api_load fuel self (Some name) f = Ok inf -> enveloped ext f.
Proof.
  intros Hin Hfc Hn Hb E. destruct (load_named fuel self name ext f Hn (native_supported _ Hin)) as [n EL]. rewrite EL in E. clear EL.
  unfold native_exts in Hin. cbn [cmc_exts mpt_exts tmc_exts app In] in Hin.
  assert (X : exists inf0 inf1, parse_module inf0 f = Ok inf1 /\ (i_type inf0 = RMT -> ext = rmt_ext)); [|destruct X as (i0 & i1 & X & HR); exact (parse_module_env i0 f i1 ext Hb X HR)].
  repeat (destruct Hin as [Ex|Hin]); try contradiction.
  all: destruct Ex. all: try (exfalso; exact (Hfc eq_refl)).
  all: match type of E with load_packed _ ?p _ _ = _ => let v := eval vm_compute in p in change p with v in E end.
  all: unfold load_packed in E; repeat match type of E with context [?a =? ?b] => let v := eval vm_compute in (a =? b) in change (a =? b) with v in E end; cbv iota in E; cbn [orb] in E.
  all: unfold parse_cmc, parse_dlt, parse_mpt, parse_rmt, parse_tmc, parse_tm2 in E.
  all: repeat first
    [ match type of E with bind (parse_module ?i _) _ = _ => apply bind_ok in E; destruct E as (inf1 & E1 & _); exists i, inf1; split; [exact E1|];
        first [reflexivity | intros HR; reflexivity | intros HR; discriminate HR] end
    | match type of E with (if ?b then Fail else _) = _ => destruct b; [discriminate E|] end
    | match type of E with bind _ _ = _ => apply bind_ok in E; destruct E as (? & _ & E) end
    | match type of E with (let '(_, _) := ?x in _) = _ => destruct x end ].
Qed.

(* ---- ASAP_Load of a native module ---- *)
Definition routine_ok (r : list Z) : bool :=
  (6 <? len r) && (len r =? 7 + file_word r 4 - file_word r 2) && (0 <=? file_word r 2) && (file_word r 4 <? 65536).
Lemma routine_facts t c : native t \/ t = FC -> routine_ok (routine t c) = true.
Proof.
  intros H. assert (X : forallb routine_ok [res_cmc_obx; res_cm3_obx; res_cmr_obx; res_cms_obx; res_dlt_obx; res_mpt_obx; res_rmt4_obx; res_rmt8_obx; res_tmc_obx; res_tm2_obx; res_fc_obx] = true)
    by (vm_compute; reflexivity).
  rewrite forallb_forall in X. apply X. destruct H as [H| ->]; [|cbn [routine In]; tauto].
  cbn [native In] in H. destruct t; cbn [routine]; try (destruct (c =? 1)); cbn [In]; intuition discriminate.
Qed.

Lemma routine_player inf : native (i_type inf) \/ i_type inf = FC -> player_routine inf = Some (routine (i_type inf) (i_channels inf)).
Proof. unfold player_routine. destruct (i_type inf); intros [H|H]; try reflexivity; try discriminate H; cbn in H; intuition discriminate. Qed.

Lemma skipn_slice f i : 0 <= i <= len f -> slice f i (len f) = skipn (Z.to_nat i) f.
Proof.
  intros H. unfold slice. apply firstn_all2. rewrite skipn_length. unfold len in *. lia.
Qed.

Lemma type_fc ext f inf : file_post ext f inf -> module_type_eqb (i_type inf) FC = eqb_list ext fc_ext.
Proof.
  intros ((_ & T & _) & _). unfold native_type in T. destruct (eqb_list ext fc_ext) eqn:E.
  - apply eqb_list_spec in E. subst ext. intuition (try discriminate); repeat match goal with H : _ = _ |- _ => rewrite H end; try reflexivity.
    all: cbn in *; intuition discriminate.
  - intuition (subst; try discriminate); repeat match goal with H : i_type _ = _ |- _ => rewrite H end; try reflexivity.
Qed.

Definition loaded_info (p : Z) (inf : info) : info := if i_player inf <? 0 then set_player p inf else inf.

Lemma native_load_eq fuel name ext f s inf : In ext native_exts -> named name ext -> bytes f -> len (i_songPos (m_info s)) = 32 ->
  api_load fuel (m_info s) (Some name) f = Ok inf ->
  let r := routine (i_type inf) (i_channels inf) in let p := file_word r 2 in let q := file_word r 4 in
  let data := music_data ext f in let start := music_start ext f in
  0 <= p /\ len (skipn 6 r) = q + 1 - p /\ q < 65536 /\ i_music inf = start /\ 0 <= start /\
  asap_load fuel (Some name) f s =
    if start <=? q then Fail
    else if start + len data <=? 65536 then Ok (set_m_memory (st_list (st_list (st (m_memory s) 19456 0) start data) p (skipn 6 r)) (set_m_info (loaded_info p inf) s))
    else UB UbWrite.
Proof.
  intros Hin Hn Hb Hp E. cbv zeta. pose proof (native_file_result _ _ _ _ _ _ Hin Hn Hb Hp E) as FP.
  destruct (loaded_own ext f inf Hin FP) as [_ HT]. pose proof (routine_facts (i_type inf) (i_channels inf) HT) as RF. set (r := routine (i_type inf) (i_channels inf)) in *.
  unfold routine_ok in RF.
  assert (LR : len (skipn 6 r) = file_word r 4 + 1 - file_word r 2).
  { change (skipn 6 r) with (skipn (Z.to_nat 6) r). rewrite <- (skipn_slice r 6), len_slice by lia. lia. }
  assert (TF := type_fc ext f inf FP).
  assert (X : i_music inf = music_start ext f /\ 0 <= music_start ext f /\ (eqb_list ext fc_ext = false -> 6 <= len f)).
  { destruct FP as ((NL & _) & M & _). pose proof (nl_music _ NL). unfold music_start. destruct (eqb_list ext fc_ext) eqn:F.
    - apply eqb_list_spec in F. destruct M as [[_ M]|[N _]]; [split; [exact M|split; [lia|discriminate]]|contradiction].
    - destruct M as [[M _]|(_ & M & S)]; [subst ext; discriminate F|]. split; [exact M|]. split; [change (file_word f 2) with (word_at f 2); lia|intros _].
      destruct HT as [HT|HT]; [|rewrite HT in TF; discriminate TF].
      cbn in HT. repeat (destruct HT as [HT|HT]; [rewrite <- HT in S; cbn [shortest] in S; lia|]). contradiction. }
  destruct X as (EM & M0 & L6). split; [lia|]. split; [exact LR|]. split; [lia|]. split; [exact EM|]. split; [exact M0|].
  unfold asap_load. rewrite E. cbn [bind]. rewrite (routine_player inf HT). fold r. rewrite !get_word_ok by lia. cbn [bind]. rewrite EM.
  destruct (music_start ext f <=? file_word r 4) eqn:C; [reflexivity|]. rewrite TF.
  assert (G : get_range f (if eqb_list ext fc_ext then 0 else 6) (len f) = Ok (music_data ext f)).
  { unfold music_data. pose proof (len_nonneg f). destruct (eqb_list ext fc_ext); [rewrite get_range_ok by lia; now rewrite slice_full|].
    specialize (L6 eq_refl). rewrite get_range_ok by lia. now rewrite skipn_slice by lia. }
  rewrite G. cbn [bind]. unfold wr_list at 1. replace (0 <=? music_start ext f) with true by lia. cbn [andb].
  destruct (_ <=? 65536); [|reflexivity]. cbn [bind]. rewrite get_range_ok by lia. cbn [bind].
  assert (SR : slice r 6 (6 + (file_word r 4 + 1 - file_word r 2)) = skipn 6 r).
  { replace (6 + (file_word r 4 + 1 - file_word r 2)) with (len r) by lia. now rewrite skipn_slice by lia. }
  rewrite SR. unfold wr_list. replace ((0 <=? file_word r 2) && (file_word r 2 + len (skipn 6 r) <=? 65536)) with true by lia. reflexivity.
Qed.

Lemma native_memory fuel name ext f s s' : In ext native_exts -> named name ext -> bytes f -> len (i_songPos (m_info s)) = 32 ->
  asap_load fuel (Some name) f s = Ok s' ->
  let t := i_type (m_info s') in let c := i_channels (m_info s') in
  routine_start t c + len (routine_code t c) <= music_start ext f /\ music_start ext f + len (music_data ext f) <= 65536 /\
  (forall i, 0 <= i < len (music_data ext f) -> ld (m_memory s') (music_start ext f + i) = at_ (music_data ext f) i) /\
  (forall i, 0 <= i < len (routine_code t c) -> ld (m_memory s') (routine_start t c + i) = at_ (routine_code t c) i) /\
  (forall a, 0 <= a < 65536 -> ~ (music_start ext f <= a < music_start ext f + len (music_data ext f)) ->
     ~ (routine_start t c <= a < routine_start t c + len (routine_code t c)) -> ld (m_memory s') a = if a =? 19456 then 0 else ld (m_memory s) a).
Proof.
  intros Hin Hn Hb Hp E. assert (X : exists inf, api_load fuel (m_info s) (Some name) f = Ok inf).
  { unfold asap_load in E. apply bind_ok in E. destruct E as (inf & E & _). now exists inf. }
  destruct X as [inf EL]. destruct (native_load_eq _ _ _ _ _ _ Hin Hn Hb Hp EL) as (P0 & LR & Q0 & EM & M0 & EQ). rewrite EQ in E. clear EQ.
  destruct (Z.leb_spec (music_start ext f) (file_word (routine (i_type inf) (i_channels inf)) 4)) as [C|C]; [discriminate E|].
  destruct (Z.leb_spec (music_start ext f + len (music_data ext f)) 65536) as [D|D]; [|discriminate E].
  assert (S : s' = set_m_memory (st_list (st_list (st (m_memory s) 19456 0) (music_start ext f) (music_data ext f)) (file_word (routine (i_type inf) (i_channels inf)) 2)
    (skipn 6 (routine (i_type inf) (i_channels inf)))) (set_m_info (loaded_info (file_word (routine (i_type inf) (i_channels inf)) 2) inf) s)) by congruence.
  clear E. assert (T : i_type (m_info s') = i_type inf /\ i_channels (m_info s') = i_channels inf).
  { rewrite S. cbn [m_info set_m_memory set_m_info]. unfold loaded_info. destruct (_ <? 0); split; reflexivity. }
  destruct T as [-> ->]. cbv zeta. fold (routine_start (i_type inf) (i_channels inf)) in *. fold (routine_code (i_type inf) (i_channels inf)) in *.
  assert (MM : m_memory s' = st_list (st_list (st (m_memory s) 19456 0) (music_start ext f) (music_data ext f)) (routine_start (i_type inf) (i_channels inf)) (routine_code (i_type inf) (i_channels inf))) by (rewrite S; reflexivity).
  clear S. set (start := music_start ext f) in *. set (data := music_data ext f) in *. set (p := routine_start _ _) in *. set (code := routine_code _ _) in *.
  pose proof (len_nonneg data). pose proof (len_nonneg code). split; [lia|]. split; [exact D|]. rewrite MM. split; [|split].
  - intros i Hi. rewrite !ld_st_list by lia. replace ((p <=? start + i) && (start + i <? p + len code)) with false by lia.
    replace ((start <=? start + i) && (start + i <? start + len data)) with true by lia. f_equal. lia.
  - intros i Hi. rewrite ld_st_list by lia. replace ((p <=? p + i) && (p + i <? p + len code)) with true by lia. f_equal. lia.
  - intros a Ha N1 N2. rewrite !ld_st_list by lia. replace ((p <=? a) && (a <? p + len code)) with false by lia. replace ((start <=? a) && (a <? start + len data)) with false by lia.
    destruct (Z.eqb_spec a 19456) as [->|N]; [apply ld_st_same|apply ld_st_other; lia].
Qed.

(* the modules of all formats but RMT and FC fit *)
Lemma native_loads fuel name ext f s inf : In ext native_exts -> ext <> rmt_ext -> ext <> fc_ext -> named name ext -> bytes f -> len (i_songPos (m_info s)) = 32 ->
  api_load fuel (m_info s) (Some name) f = Ok inf ->
  if file_word f 2 <? routine_start (i_type inf) (i_channels inf) + len (routine_code (i_type inf) (i_channels inf))
  then asap_load fuel (Some name) f s = Fail
  else exists s', asap_load fuel (Some name) f s = Ok s'.
Proof.
  intros Hin N1 N2 Hn Hb Hp E. destruct (native_load_eq _ _ _ _ _ _ Hin Hn Hb Hp E) as (P0 & LR & Q0 & EM & M0 & EQ). rewrite EQ. clear EQ.
  pose proof (native_enveloped _ _ _ _ _ _ Hin N2 Hn Hb E) as (_ & _ & EV).
  assert (F : eqb_list ext fc_ext = false) by (apply not_true_is_false; intros F; apply eqb_list_spec in F; contradiction).
  unfold routine_start, routine_code. rewrite LR. unfold music_start, music_data in *. rewrite F in *.
  destruct EV as [EV|[EV _]]; [|contradiction].
  assert (W4 : file_word f 4 <= 65535) by (unfold file_word; pose proof (at_byte' f 4 Hb); pose proof (at_byte' f (4 + 1) Hb); unfold byte in *; lia).
  assert (L6 : 6 <= len f).
  { pose proof (native_file_result _ _ _ _ _ _ Hin Hn Hb Hp E) as FP. destruct (loaded_own ext f inf Hin FP) as [_ HT]. pose proof (type_fc ext f inf FP) as TF. rewrite F in TF.
    destruct FP as (_ & [[M _]|(_ & M & S)] & _); [contradiction|]. destruct HT as [HT|HT]; [|rewrite HT in TF; discriminate TF].
    cbn in HT. repeat (destruct HT as [HT|HT]; [rewrite <- HT in S; cbn [shortest] in S; lia|]). contradiction. }
  assert (LD : len (skipn 6 f) = len f - 6) by (change (skipn 6 f) with (skipn (Z.to_nat 6) f); rewrite <- (skipn_slice f 6), len_slice by lia; lia).
  rewrite LD. destruct (Z.ltb_spec (file_word f 2) (file_word (routine (i_type inf) (i_channels inf)) 2 + (file_word (routine (i_type inf) (i_channels inf)) 4 + 1 - file_word (routine (i_type inf) (i_channels inf)) 2))).
  - now replace (file_word f 2 <=? file_word (routine (i_type inf) (i_channels inf)) 4) with true by lia.
  - replace (file_word f 2 <=? file_word (routine (i_type inf) (i_channels inf)) 4) with false by lia. replace (file_word f 2 + (len f - 6) <=? 65536) with true by lia. eexists. reflexivity.
Qed.
