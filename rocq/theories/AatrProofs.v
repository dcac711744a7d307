(* Sectors and directories of ATR disk images. *)
From Verif Require Import Base BaseFacts Loop InfoProofs AatrModel AatrSpec.

(* ---- sectors ---- *)
Lemma lor_bytes a b : byte a -> Z.lor a (Z.shiftl b 8) = a + 256 * b.
Proof.
  intros H. rewrite Z.shiftl_mul_pow2 by lia. change (2 ^ 8) with 256.
  assert (E : Z.land a (b * 256) = 0).
  { apply Z.bits_inj'. intros n Hn. rewrite Z.land_spec, Z.bits_0. change 256 with (2 ^ 8). destruct (Z_lt_ge_dec n 8) as [C|C].
    - rewrite Z.mul_pow2_bits_low by lia. apply andb_false_r.
    - replace (Z.testbit a n) with false; [reflexivity|]. symmetry. unfold byte in H. destruct (Z.eq_dec a 0) as [-> |N]; [apply Z.bits_0|].
      apply Z.bits_above_log2; [lia|]. assert (Z.log2 a < 8); [|lia]. apply Z.log2_lt_pow2; [lia|]. change (2 ^ 8) with 256. lia. }
  rewrite <- Z.lxor_lor, <- Z.add_nocarry_lxor by exact E. lia.
Qed.

Lemma read_image_spec img o n : 0 <= n -> read_image img o n = if (0 <=? o) && (o + n <=? len img) then Some (slice img o (o + n)) else None.
Proof.
  intros Hn. unfold read_image. destruct ((0 <=? o) && (o + n <=? len img)) eqn:E.
  - replace ((o <? 0) || (len img <? o + n)) with false by lia. reflexivity.
  - replace ((o <? 0) || (len img <? o + n)) with true by lia. reflexivity.
Qed.

Lemma opened_disk img disk : bytes img -> aatr_open img = Ok (Some disk) ->
  6 <= len img /\ header_magic img = true /\ (header_sector_size img = 128 \/ header_sector_size img = 256)
  /\ disk = mkAatr img (header_sector_size img) (if header_padded img then 784 else 400).
Proof.
  intros Hb H. unfold aatr_open in H. rewrite read_image_spec in H by lia. destruct ((0 <=? 0) && (0 + 6 <=? len img)) eqn:L; [|discriminate].
  change (0 + 6) with 6 in *. assert (L6 : len (slice img 0 6) = 6) by (rewrite len_slice; lia).
  rewrite !get_ok in H by lia. cbn [bind] in H. rewrite !at_slice in H by lia. rewrite !Z.add_0_l in H.
  unfold header_magic, header_padded, header_sector_size. rewrite lor_bytes in H by (apply at_byte; [exact Hb|lia]).
  change 15 with (Z.ones 4) in H. rewrite Z.land_ones in H by lia. change (2 ^ 4) with 16 in H. cbn zeta in H.
  destruct (Z.eqb_spec (at_ img 0) 150) as [H0|]; [|discriminate]. destruct (Z.eqb_spec (at_ img 1) 2) as [H1|]; [|discriminate]. cbn [negb orb] in H.
  split; [lia|]. split; [reflexivity|].
  set (z := at_ img 4 + 256 * at_ img 5) in *. clearbody z.
  destruct (Z.eqb_spec z 128) as [E|E].
  - injection H as <-. split; [auto|]. rewrite E. reflexivity.
  - destruct (Z.eqb_spec z 256) as [E2|E2]; [|discriminate]. injection H as <-. split; [auto|]. rewrite E2.
    destruct (at_ img 2 mod 16 =? 0); reflexivity.
Qed.

Lemma sector_start_low bps pad s : 1 <= s <= 3 -> sector_start bps pad s = 16 + 128 * (s - 1).
Proof. intros H. assert (s = 1 \/ s = 2 \/ s = 3) as [-> |[-> | ->]] by lia; reflexivity. Qed.
Lemma sector_end_high bps pad n : (3 <= n)%nat -> sector_end bps pad n = (if pad then 784 else 400) + (Z.of_nat n - 3) * bps.
Proof.
  induction n as [|n IH]; intros H; [lia|]. destruct (Nat.eq_dec n 2) as [-> |N]; [destruct pad; cbn; lia|].
  cbn [sector_end]. rewrite IH by lia. unfold sector_size. replace (Z.of_nat (S n) <=? 3) with false by lia. replace (Z.of_nat (S n) =? 3) with false by lia.
  cbn [andb]. lia.
Qed.
Lemma sector_start_high bps pad s : 4 <= s -> sector_start bps pad s = (if pad then 784 else 400) + (s - 4) * bps.
Proof. intros H. unfold sector_start. rewrite sector_end_high by lia. replace (Z.of_nat (Z.to_nat (s - 1)) - 3) with (s - 4) by lia. reflexivity. Qed.

Lemma sector_start_ge bps pad s : 0 <= bps -> 1 <= s -> 16 <= sector_start bps pad s.
Proof.
  intros Hb Hs. destruct (Z_le_gt_dec s 3); [rewrite sector_start_low by lia; lia|]. rewrite sector_start_high by lia.
  assert (0 <= (s - 4) * bps) by (apply Z.mul_nonneg_nonneg; lia). destruct pad; lia.
Qed.

Lemma sector_reads img disk s n : bytes img -> aatr_open img = Ok (Some disk) -> 0 < n <= sector_size (at_bps disk) s -> 1 <= s ->
  read_sector disk s n =
    let start := sector_start (header_sector_size img) (header_padded img) s in if start + n <=? len img then Some (slice img start (start + n)) else None.
Proof.
  intros Hb H Hn Hs. apply opened_disk in H; [|exact Hb]. destruct H as (_ & _ & S & ->). cbn [at_bps] in Hn. cbn zeta.
  unfold read_sector, sector_offset. cbn [at_bps at_sector4 at_image].
  pose proof (sector_start_ge (header_sector_size img) (header_padded img) s ltac:(lia) Hs) as G.
  destruct (Z.ltb_spec s 4) as [C|C].
  - unfold sector_size in Hn. replace (s <=? 3) with true in Hn by lia. replace ((s <? 1) || (128 <? n)) with false by lia.
    rewrite sector_start_low in * by lia. rewrite Z.shiftl_mul_pow2 by lia. change (2 ^ 7) with 128. replace (s * 128 - 112) with (16 + 128 * (s - 1)) by lia.
    rewrite read_image_spec by lia. replace (0 <=? 16 + 128 * (s - 1)) with true by lia. reflexivity.
  - rewrite sector_start_high in * by lia. rewrite read_image_spec by lia. replace (0 <=? _) with true by lia. reflexivity.
Qed.

Lemma sector_missing disk s n : s <= 0 -> read_sector disk s n = None.
Proof. intros H. unfold read_sector, sector_offset. replace (s <? 4) with true by lia. replace (s <? 1) with true by lia. reflexivity. Qed.
Lemma boot_sector_as_data disk s n : s <= 3 -> 128 < n -> read_sector disk s n = None.
Proof. intros H Hn. unfold read_sector, sector_offset. replace (s <? 4) with true by lia. replace (128 <? n) with true by lia. rewrite orb_true_r. reflexivity. Qed.

Lemma sectors_apart bps pad s s' : 0 <= bps -> 1 <= s -> s < s' -> sector_start bps pad s + sector_size bps s <= sector_start bps pad s'.
Proof.
  intros Hb Hs L. unfold sector_size. destruct (Z.leb_spec s 3).
  - rewrite sector_start_low by lia. destruct (Z_le_gt_dec s' 3); [rewrite sector_start_low by lia; lia|]. rewrite sector_start_high by lia.
    assert (0 <= (s' - 4) * bps) by (apply Z.mul_nonneg_nonneg; lia). destruct pad; lia.
  - rewrite !sector_start_high by lia. assert ((s' - 4) * bps = (s - 4) * bps + bps + (s' - s - 1) * bps) by ring.
    assert (0 <= (s' - s - 1) * bps) by (apply Z.mul_nonneg_nonneg; lia). lia.
Qed.

Lemma opened_ok img disk : bytes img -> aatr_open img = Ok (Some disk) -> image_ok disk.
Proof. intros Hb H. apply opened_disk in H; [|exact Hb]. destruct H as (_ & _ & S & ->). split; [exact Hb|exact S]. Qed.

Lemma read_sector_ok disk s n sector : image_ok disk -> 0 <= n -> read_sector disk s n = Some sector -> len sector = n /\ bytes sector.
Proof.
  intros [Hb _] Hn H. unfold read_sector in H. destruct (sector_offset disk s n) as [o|]; [|discriminate]. rewrite read_image_spec in H by exact Hn.
  destruct ((0 <=? o) && (o + n <=? len (at_image disk))) eqn:E; [|discriminate]. injection H as <-. split; [rewrite len_slice; lia|now apply bytes_slice].
Qed.

(* ---- names ---- *)
Definition char_agree (c : Z) : bool := Bool.eqb (name_char c) (filename_char c).
Lemma chars_agree : forallb char_agree (zrange 256) = true. Proof. vm_compute. reflexivity. Qed.
Lemma name_char_spec c : byte c -> name_char c = filename_char c.
Proof. intros H. pose proof (forallb_zrange _ _ chars_agree c ltac:(unfold byte in H; lia)) as K. now apply eqb_prop in K. Qed.

Lemma rest_blank_spec n : forall sector i, 0 <= i -> i + Z.of_nat n <= len sector ->
  rest_blank n sector i = Ok (forallb (fun c => c =? 32) (slice sector i (i + Z.of_nat n))).
Proof.
  induction n as [|n IH]; intros sector i Hi Hl.
  - cbn [rest_blank]. replace (i + Z.of_nat 0) with i by lia. rewrite slice_nil. reflexivity.
  - cbn [rest_blank]. rewrite get_ok by lia. cbn [bind]. rewrite slice_cons by lia. cbn [forallb]. destruct (at_ sector i =? 32); [|reflexivity].
    rewrite IH by lia. replace (i + 1 + Z.of_nat n) with (i + Z.of_nat (S n)) by lia. reflexivity.
Qed.

Lemma filename_part_spec sector o (k : nat) : bytes sector -> forall n length, 0 <= o -> 0 <= length -> o + length + Z.of_nat n <= len sector ->
  filename_part n sector o length =
    Ok (match name_field (slice sector (o + length) (o + length + Z.of_nat n)) with Some w => length + len w | None => -1 end).
Proof.
  intros Hb. induction n as [|n IH]; intros length Ho Hn Hl.
  - cbn [filename_part]. replace (o + length + Z.of_nat 0) with (o + length) by lia. rewrite slice_nil. cbn. f_equal. change (len (@nil Z)) with 0. lia.
  - cbn [filename_part]. rewrite get_ok by lia. cbn [bind]. rewrite slice_cons by lia. set (c := at_ sector (o + length)).
    assert (Hc : byte c) by (apply at_byte; [exact Hb|lia]). unfold name_field. cbn [word]. destruct (Z.eqb_spec c 32) as [E|E].
    + rewrite rest_blank_spec by lia. cbn [bind List.length skipn forallb andb]. replace (c =? 32) with true by lia. cbn [andb].
      replace (o + length + 1 + Z.of_nat n) with (o + length + Z.of_nat (S n)) by lia.
      destruct (forallb _ _); [|reflexivity]. change (len (@nil Z)) with 0. f_equal. lia.
    + cbn [List.length skipn forallb]. rewrite <- name_char_spec by exact Hc. destruct (name_char c); [|reflexivity]. cbn [andb].
      rewrite IH by lia. unfold name_field. replace (o + (length + 1)) with (o + length + 1) by lia. replace (o + length + 1 + Z.of_nat n) with (o + length + Z.of_nat (S n)) by lia.
      destruct (_ && _); [|reflexivity]. f_equal. rewrite len_cons. lia.
Qed.

Lemma word_prefix l : exists r, l = word l ++ r.
Proof. induction l as [|c l [r IH]]; [exists []; reflexivity|]. cbn [word]. destruct (c =? 32); [exists (c :: l); reflexivity|]. exists r. cbn. congruence. Qed.
Lemma name_field_prefix l w : name_field l = Some w -> exists r, l = w ++ r.
Proof. unfold name_field. destruct (_ && _); [|discriminate]. intros H. injection H as <-. apply word_prefix. Qed.
Lemma name_field_chars l w : name_field l = Some w -> forallb filename_char w = true.
Proof. unfold name_field. intros H. destruct (_ && _) eqn:E in H; [|discriminate]. injection H as <-. now apply andb_true_iff in E. Qed.

Lemma slice_prefix l i j w r : 0 <= i -> i <= j -> j <= len l -> slice l i j = w ++ r -> slice l i (i + len w) = w /\ i + len w <= j.
Proof.
  intros Hi Hj Hl E. assert (L : len (w ++ r) = j - i) by (rewrite <- E; apply len_slice; lia). rewrite len_app in L. pose proof (len_nonneg r). pose proof (len_nonneg w).
  split; [|lia]. rewrite <- (slice_cat l i (i + len w) j) in E by lia.
  assert (LS : len (slice l i (i + len w)) = len w) by (rewrite len_slice; lia). set (a := slice l i (i + len w)) in *. clearbody a.
  apply app_eq_app in E. destruct E as (x & [[E1 E2]|[E1 E2]]); rewrite E1, len_app in LS; assert (X : len x = 0) by lia; apply len_0_nil in X; subst x; now rewrite app_nil_r in E1.
Qed.

(* the name the code builds from record k of a sector, and what it leaves in the sector *)
Lemma entry_name_slices sector o : bytes sector -> 0 <= o -> o + 16 <= len sector ->
  entry_name (slice sector o (o + 16)) =
  match name_field (slice sector (o + 5) (o + 13)), name_field (slice sector (o + 13) (o + 16)) with
  | Some [], Some [] => None | Some w, Some [] => Some w | Some w, Some e => Some (w ++ 46 :: e) | _, _ => None end.
Proof.
  intros Hb Ho Hl. unfold entry_name.
  assert (S : forall a b, 0 <= a -> a <= b -> b <= 16 -> slice (slice sector o (o + 16)) a b = slice sector (o + a) (o + b)).
  { intros a b Ha Hab Hb16. assert (L : len (slice sector o (o + 16)) = 16) by (rewrite len_slice; lia). apply list_eq_at.
    - rewrite !len_slice by lia. lia.
    - intros i Hi. rewrite len_slice in Hi by lia. rewrite !at_slice by lia. f_equal. lia. }
  rewrite !S by lia. reflexivity.
Qed.

(* ---- directory entries ---- *)
Definition kind_agree (s : Z) : bool :=
  let t := Z.land s 215 in
  let ok bps := match entry_kind_of bps s with EndOfDirectory => t =? 0 | Entry => negb (t =? 0) && is_kind bps t | Skipped => negb (t =? 0) && negb (is_kind bps t) end in
  ok 128 && ok 256.
Lemma kinds_agree : forallb kind_agree (zrange 256) = true. Proof. vm_compute. reflexivity. Qed.
Lemma kind_spec bps s : byte s -> bps = 128 \/ bps = 256 ->
  entry_kind_of bps s = if Z.land s 215 =? 0 then EndOfDirectory else if is_kind bps (Z.land s 215) then Entry else Skipped.
Proof.
  intros H Hb. pose proof (forallb_zrange _ _ kinds_agree s ltac:(unfold byte in H; lia)) as K. unfold kind_agree in K. cbv zeta in K. apply andb_true_iff in K. destruct K as [K1 K2].
  destruct Hb as [-> | ->].
  - destruct (entry_kind_of 128 s); destruct (Z.land s 215 =? 0); try discriminate; try reflexivity; destruct (is_kind 128 _); try discriminate; reflexivity.
  - destruct (entry_kind_of 256 s); destruct (Z.land s 215 =? 0); try discriminate; try reflexivity; destruct (is_kind 256 _); try discriminate; reflexivity.
Qed.

Notation sector128 := directory_ok.
(* d is about to look at record k of the directory at sector f *)
Definition iter_at (disk : aatr) (f k : Z) (d : directory) : Prop :=
  dir_first d = f /\ dir_fileNo d = k - 1 /\ 0 <= k <= 64 /\ sector128 d /\
  (k mod 8 <> 0 -> exists sector, read_sector disk (f + k / 8) 128 = Some sector /\ forall i, 16 * (k mod 8) <= i < 128 -> at_ (dir_sector d) i = at_ sector i).
Definition from (disk : aatr) (f k : Z) : list entry := entries_from disk f (Z.to_nat (64 - k)) k.

Definition step_result (disk : aatr) (f k : Z) (x : directory + (option (list Z) * directory)) : Prop :=
  match x with
  | inl d => iter_at disk f (k + 1) d /\ from disk f k = from disk f (k + 1)
  | inr (None, d) => sector128 d /\ from disk f k = []
  | inr (Some name, d) => iter_at disk f (k + 1) d /\ exists e, e_name e = name /\ points d e /\ from disk f k = e :: from disk f (k + 1)
  end.

Lemma land7 k : 0 <= k -> Z.shiftl (Z.land k 7) 4 = 16 * (k mod 8).
Proof. intros H. change 7 with (Z.ones 3). rewrite Z.land_ones by lia. rewrite Z.shiftl_mul_pow2 by lia. change (2 ^ 3) with 8. change (2 ^ 4) with 16. lia. Qed.
Lemma shr3 k : Z.shiftr k 3 = k / 8.
Proof. rewrite Z.shiftr_div_pow2 by lia. reflexivity. Qed.

Lemma from_step disk f k : 0 <= k < 64 ->
  from disk f k = match directory_record disk f k with
    | None => []
    | Some r => let t := Z.land (at_ r 0) 0xd7 in
      if t =? 0 then [] else match (if is_kind (at_bps disk) t then entry_name r else None) with
        | None => from disk f (k + 1) | Some name => mkEntry name t (at_ r 3 + 256 * at_ r 4) :: from disk f (k + 1) end
    end.
Proof.
  intros H. unfold from. replace (Z.to_nat (64 - k)) with (S (Z.to_nat (64 - (k + 1)))) by lia. reflexivity.
Qed.

Lemma next_iter disk f k sector d : 0 <= k < 64 -> read_sector disk (f + k / 8) 128 = Some sector -> dir_first d = f -> dir_fileNo d = k -> sector128 d ->
  (forall i, 16 * (k mod 8) + 16 <= i < 128 -> at_ (dir_sector d) i = at_ sector i) -> iter_at disk f (k + 1) d.
Proof.
  intros Hk R F N S A. split; [exact F|]. split; [lia|]. split; [lia|]. split; [exact S|]. intros M. exists sector.
  assert ((k + 1) / 8 = k / 8 /\ (k + 1) mod 8 = k mod 8 + 1) as [-> ->] by lia. split; [exact R|]. intros i Hi. apply A. lia.
Qed.

Lemma at_upd l i j v : 0 <= i -> 0 <= j -> i <> j -> at_ (upd l (Z.to_nat i) v) j = at_ l j.
Proof. intros Hi Hj N. unfold at_. apply nth_upd_ne. lia. Qed.
Lemma at_upd_same l i v : 0 <= i < len l -> at_ (upd l (Z.to_nat i) v) i = v.
Proof. intros Hi. unfold at_. apply nth_upd_eq. unfold len in Hi. lia. Qed.
Lemma bytes_upd l i v : bytes l -> byte v -> bytes (upd l i v).
Proof. intros H Hv. revert i. induction H as [|x l Hx H IH]; intros [|i]; cbn [upd]; constructor; auto. apply IH. Qed.

Lemma points_entry d o t fst sector : 0 <= dir_fileNo d -> o = 16 * (dir_fileNo d mod 8) -> sector128 d -> at_ (dir_sector d) o = at_ sector o -> at_ (dir_sector d) (o + 3) = at_ sector (o + 3) ->
  at_ (dir_sector d) (o + 4) = at_ sector (o + 4) -> t = Z.land (at_ sector o) 215 -> fst = at_ sector (o + 3) + 256 * at_ sector (o + 4) -> forall name, points d (mkEntry name t fst).
Proof.
  intros Hk Ho [L B] A0 A3 A4 -> -> name. unfold points, entry_type, entry_first_sector. cbn [e_type e_first]. cbv zeta. rewrite land7 by exact Hk. rewrite <- Ho.
  rewrite !get_ok by lia. cbn [bind]. rewrite A0. split; [reflexivity|]. rewrite A3, A4. rewrite lor_bytes; [reflexivity|]. rewrite <- A3. apply at_byte; [exact B|lia].
Qed.

Lemma next_entry_step_spec disk f k d : image_ok disk -> iter_at disk f k d -> wp (next_entry_step disk d) (step_result disk f k).
Proof.
  intros I (F & N & Hk & S & LD). unfold next_entry_step. rewrite N. replace (k - 1 + 1) with k by lia. destruct (Z.leb_spec 63 (k - 1)) as [C|C].
  { cbn. split; [exact S|]. unfold from. replace (Z.to_nat (64 - k)) with 0%nat by lia. reflexivity. }
  cbv zeta. cbn [dir_first dir_sector]. rewrite F, land7, shr3 by lia. set (o := 16 * (k mod 8)) in *. assert (Ho : 0 <= o /\ o + 16 <= 128) by lia.
  assert (HL : (if o =? 0 then read_sector disk (f + k / 8) 128 else Some (dir_sector d)) = None /\ directory_record disk f k = None
    \/ exists sec sec0, (if o =? 0 then read_sector disk (f + k / 8) 128 else Some (dir_sector d)) = Some sec /\ read_sector disk (f + k / 8) 128 = Some sec0
         /\ len sec = 128 /\ bytes sec /\ forall i, o <= i < 128 -> at_ sec i = at_ sec0 i).
  { destruct (Z.eqb_spec o 0) as [E|E].
    - unfold directory_record. destruct (read_sector disk (f + k / 8) 128) as [sec|] eqn:R; [|left; auto]. right. exists sec, sec.
      destruct (read_sector_ok _ _ 128 _ I ltac:(lia) R). auto 10.
    - right. destruct (LD ltac:(lia)) as (sec0 & R & A). exists (dir_sector d), sec0. destruct S as [S1 S2]. auto 10. }
  destruct HL as [[L R]|(sec & sec0 & L & R & L1 & B1 & A)]; rewrite L; clear L.
  { cbn. split; [exact S|]. rewrite from_step by lia. now rewrite R. }
  assert (B0 : len sec0 = 128 /\ bytes sec0) by (apply (read_sector_ok _ _ 128 _ I ltac:(lia) R)). destruct B0 as [L0 B0].
  assert (SL : slice sec0 o (o + 16) = slice sec o (o + 16)).
  { apply list_eq_at; [now rewrite !len_slice by lia|]. intros i Hi. rewrite len_slice in Hi by lia. rewrite !at_slice by lia. symmetry. apply A. lia. }
  assert (FR : from disk f k = let t := Z.land (at_ sec o) 0xd7 in
      if t =? 0 then [] else match (if is_kind (at_bps disk) t then entry_name (slice sec o (o + 16)) else None) with
        | None => from disk f (k + 1) | Some name => mkEntry name t (at_ sec (o + 3) + 256 * at_ sec (o + 4)) :: from disk f (k + 1) end).
  { rewrite from_step by lia. unfold directory_record. rewrite R. fold o. rewrite SL. rewrite !at_slice by lia. rewrite Z.add_0_r. reflexivity. }
  cbv zeta in FR. rewrite get_ok by lia. cbn [bind]. rewrite kind_spec; [|apply at_byte; [exact B1|lia]|apply I].
  assert (IT : iter_at disk f (k + 1) (mkDirectory f k sec)).
  { apply next_iter with sec0; auto; [lia|split; auto|]. cbn [dir_sector]. intros i Hi. apply A. fold o in Hi. lia. }
  destruct (Z.land (at_ sec o) 215 =? 0) eqn:T0; [cbn; split; [split; [exact L1|exact B1]|exact FR]|].
  destruct (is_kind (at_bps disk) (Z.land (at_ sec o) 215)) eqn:K; [|cbn; split; [exact IT|exact FR]].
  rewrite entry_name_slices in FR by (auto; lia).
  rewrite (filename_part_spec sec (o + 5) 0 B1 8 0) by lia. cbn [bind]. replace (o + 5 + 0 + Z.of_nat 8) with (o + 13) by lia. replace (o + 5 + 0) with (o + 5) by lia.
  destruct (name_field (slice sec (o + 5) (o + 13))) as [w|] eqn:W; [|cbn; split; [exact IT|]; rewrite FR; destruct (name_field _) as [[|]|]; reflexivity].
  pose proof (len_nonneg w) as Lw. replace (0 + len w <? 0) with false by lia. rewrite Z.add_0_l.
  rewrite (filename_part_spec sec (o + 13) 0 B1 3 0) by lia. cbn [bind]. replace (o + 13 + 0 + Z.of_nat 3) with (o + 16) by lia. replace (o + 13 + 0) with (o + 13) by lia.
  destruct (name_field (slice sec (o + 13) (o + 16))) as [x|] eqn:X.
  2: { cbn. split; [exact IT|]. rewrite FR. destruct w; reflexivity. }
  pose proof (len_nonneg x) as Lx. replace (0 + len x <? 0) with false by lia. rewrite Z.add_0_l. cbn [orb].
  destruct ((len w =? 0) && (len x =? 0)) eqn:Z0.
  { assert (w = []) as -> by (apply len_0_nil; lia). assert (x = []) as -> by (apply len_0_nil; lia). cbn. split; [exact IT|exact FR]. }
  destruct (name_field_prefix _ _ W) as (rw & Ew). apply slice_prefix in Ew; [|lia..]. destruct Ew as [Ew Lw'].
  destruct (name_field_prefix _ _ X) as (rx & Ex). apply slice_prefix in Ex; [|lia..]. destruct Ex as [Ex Lx'].
  rewrite get_range_ok by lia. cbn [bind]. rewrite Ew. destruct (Z.ltb_spec 0 (len x)) as [Cx|Cx].
  - unfold set_nth. replace ((o + 12 <? 0) || (len sec <=? o + 12)) with false by lia. cbn [bind]. set (sec' := upd sec (Z.to_nat (o + 12)) 46).
    assert (Ls : len sec' = 128) by (unfold sec'; rewrite len_upd; exact L1). rewrite get_range_ok by lia. cbn [bind wp leave step_result].
    assert (EX : slice sec' (o + 12) (o + 12 + 1 + len x) = 46 :: x).
    { rewrite slice_cons by lia. f_equal; [unfold sec'; apply at_upd_same; lia|]. transitivity (slice sec (o + 13) (o + 13 + len x)); [|exact Ex]. apply list_eq_at.
      - rewrite !len_slice by lia. lia.
      - intros i Hi. rewrite len_slice in Hi by lia. rewrite !at_slice by lia. replace (o + 12 + 1 + i) with (o + 13 + i) by lia. unfold sec'. rewrite at_upd by lia. reflexivity. }
    rewrite EX. split.
    + apply next_iter with sec0; auto; [lia|split; [exact Ls|unfold sec'; apply bytes_upd; [exact B1|unfold byte; lia]]|]. cbn [dir_sector]. intros i Hi. fold o in Hi. unfold sec'. rewrite at_upd by lia. apply A. lia.
    + eexists. split; [|split; [|rewrite FR; destruct w; destruct x; try (change (len (@nil Z)) with 0 in Cx; lia); reflexivity]].
      * destruct w; destruct x; try (change (len (@nil Z)) with 0 in Cx; lia); reflexivity.
      * eapply points_entry with (sector := sec) (o := o); cbn [dir_fileNo dir_sector]; try reflexivity; try lia.
        -- split; [exact Ls|unfold sec'; apply bytes_upd; [exact B1|unfold byte; lia]].
        -- unfold sec'. apply at_upd; lia.
        -- unfold sec'. apply at_upd; lia.
        -- unfold sec'. apply at_upd; lia.
  - assert (x = []) as -> by (apply len_0_nil; lia). change (len (@nil Z)) with 0 in Z0. destruct w as [|c w]; [discriminate|]. cbn [wp leave step_result]. split; [exact IT|].
    eexists. split; [|split; [|exact FR]]; [reflexivity|]. eapply points_entry with (sector := sec) (o := o); cbn [dir_fileNo dir_sector]; try reflexivity; try lia. split; [exact L1|exact B1].
Qed.
