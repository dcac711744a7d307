(* ASAP_GetWavHeader stores a RIFF/WAVE header *)
From Coq Require Import String.
From Verif Require Import Base BaseFacts Loop MemModel InfoModel InfoSpec InfoProofs PokeyModel MachineModel CpuProofs PokeyProofs MachineProofs FrameProofs PokeyFacts PlayModel WriterModel WriterProofs StoreProofs PlaySpec SessionSpec GenerateProofs PlayProofs SessionProofs SessionFacts WavSpec.

Lemma le32_eq v : le32 v = little_endian 4 v.
Proof. unfold le32, u8. cbn [little_endian]. rewrite !Z.shiftr_div_pow2 by lia. rewrite !Zdiv.Zdiv_Zdiv by lia. reflexivity. Qed.
Lemma len_le n v : len (little_endian n v) = Z.of_nat n.
Proof. revert v. induction n as [|n IH]; intros v; [reflexivity|]. cbn [little_endian]. rewrite len_cons, IH. lia. Qed.

Lemma store_at buf off l pre old post : buf = pre ++ old ++ post -> off = len pre -> len old = len l ->
  store_bytes buf off l = Ok (pre ++ l ++ post).
Proof.
  intros -> -> H. rewrite store_bytes_ok by (rewrite ?len_app; pose proof (len_nonneg pre); pose proof (len_nonneg post); lia).
  f_equal. unfold splice, len in *. rewrite Nat2Z.id, firstn_app, firstn_all, Nat.sub_diag. cbn [firstn]. rewrite app_nil_r. f_equal. f_equal.
  rewrite skipn_app. rewrite skipn_all2 by lia. cbn [app]. rewrite skipn_app, skipn_all2 by lia. cbn [app].
  replace (Z.to_nat _ - length pre - length old)%nat with 0%nat by lia. reflexivity.
Qed.
Lemma set_at (buf : list Z) off v pre x post : buf = pre ++ x :: post -> off = len pre -> set_nth buf off v = Ok (pre ++ v :: post).
Proof.
  intros -> ->. pose proof (store_at (pre ++ x :: post) (len pre) [v] pre [x] post eq_refl eq_refl eq_refl) as H. cbn [store_bytes app] in H.
  destruct (set_nth _ _ _) as [b| | |]; cbn [bind] in H; congruence.
Qed.
Lemma put_le_at buf off v pre old post : buf = pre ++ old ++ post -> off = len pre -> len old = 4 ->
  put_le buf off v = Ok (pre ++ little_endian 4 v ++ post).
Proof. intros H1 H2 H3. unfold put_le. rewrite le32_eq. apply store_at with old; [exact H1|exact H2|]. now rewrite len_le. Qed.
Lemma cut (l : list Z) n : 0 <= n <= len l -> exists a b, l = a ++ b /\ len a = n /\ b = skipn (Z.to_nat n) l.
Proof.
  intros H. exists (firstn (Z.to_nat n) l), (skipn (Z.to_nat n) l). rewrite firstn_skipn. split; [reflexivity|]. split; [|reflexivity].
  unfold len in *. rewrite firstn_length. lia.
Qed.
Lemma put_le2_at buf off v w pre old post : buf = pre ++ old ++ post -> off = len pre -> len old = 8 ->
  put_le2 buf off v w = Ok (pre ++ (little_endian 4 v ++ little_endian 4 w) ++ post).
Proof.
  intros -> -> H. destruct (cut old 4 ltac:(lia)) as (a & b & -> & La & _). rewrite len_app in H. unfold put_le2.
  rewrite put_le_at with (pre := pre) (old := a) (post := b ++ post) by (rewrite <- ?app_assoc; reflexivity || assumption). cbn [bind].
  rewrite put_le_at with (pre := pre ++ little_endian 4 v) (old := b) (post := post).
  - now rewrite <- !app_assoc.
  - now rewrite <- !app_assoc.
  - rewrite len_app, len_le. lia.
  - lia.
Qed.
Lemma map_u8 l : bytes l -> map u8 l = l.
Proof.
  intros H. induction H as [|x l Hx _ IH]; [reflexivity|]. cbn [map]. rewrite IH. unfold u8. rewrite Z.mod_small; [reflexivity|exact Hx].
Qed.

Lemma lor_1 k : 0 <= k -> Z.lor (2 * k) 1 = 2 * k + 1 /\ Z.lor (2 * k + 1) 1 = 2 * k + 1.
Proof. intros H. destruct k as [|p|p]; [split; reflexivity|split; reflexivity|lia]. Qed.
Lemma len_zero_ended t : len (zero_ended t) = Z.lor (len t) 1 + 1 /\ len (zero_ended t) = (if Z.land (len t) 1 =? 0 then len t + 2 else len t + 1)
  /\ Z.even (len (zero_ended t)) = true.
Proof.
  assert (E : Z.land (len t) 1 = len t mod 2) by (change 1 with (Z.ones 1); now rewrite Z.land_ones by lia).
  assert (O : Z.lor (len t) 1 = len t + 1 - len t mod 2).
  { pose proof (len_nonneg t) as H. pose proof (Z.div_mod (len t) 2 ltac:(lia)) as D. pose proof (Z.mod_pos_bound (len t) 2 ltac:(lia)) as M.
    assert (K : 0 <= len t / 2) by (apply Z.div_pos; lia). destruct (len t mod 2) as [|p|p]; [| |lia].
    - rewrite D at 1. rewrite Z.add_0_r. rewrite (proj1 (lor_1 _ K)). lia.
    - assert (p = 1%positive) as -> by lia. rewrite D at 1. rewrite (proj2 (lor_1 _ K)). lia. }
  unfold zero_ended. rewrite len_app, O, E, Zmod_even. destruct (Z.even (len t)) eqn:Q; cbn [len length]; rewrite ?len_cons, ?len_nil.
  - split; [lia|]. split; [reflexivity|]. now rewrite Z.even_add, Q.
  - split; [lia|]. split; [reflexivity|]. now rewrite Z.even_add, Q.
Qed.

Lemma put_metadata_ok id fourCC text pre rest : le32 fourCC = str id -> bytes text -> len (info_chunk id text) <= len rest ->
  put_wav_metadata (pre ++ rest) (len pre) fourCC text =
  Ok (len pre + len (info_chunk id text), pre ++ info_chunk id text ++ skipn (Z.to_nat (len (info_chunk id text))) rest).
Proof.
  intros HI HB HL. unfold put_wav_metadata. cbv zeta. destruct text as [|c text]; cbn [info_chunk] in *.
  - change (0 <? len []) with false. cbv iota. change (len []) with 0. rewrite Z.add_0_r. reflexivity.
  - set (t := c :: text) in *. assert (Ht : 0 < len t) by (unfold t; rewrite len_cons; pose proof (len_nonneg text); lia).
    destruct (0 <? len t) eqn:Q; [|lia]. destruct (len_zero_ended t) as (Z1 & Z2 & _).
    assert (HS : len (str id) = 4) by (rewrite <- HI; reflexivity). unfold chunk in *. rewrite !len_app, len_le, HS in *. change (Z.of_nat 4) with 4 in *.
    destruct (cut rest (4 + (4 + len (zero_ended t))) ltac:(pose proof (len_nonneg (zero_ended t)); lia)) as (r & tail & RE & RL & <-).
    rewrite RE. destruct (cut r 8 ltac:(pose proof (len_nonneg (zero_ended t)); lia)) as (r8 & r' & -> & L8 & _). rewrite len_app in RL.
    assert (L' : len r' = len (zero_ended t)) by lia. rewrite Z2 in L'. assert (LT : len t <= len r') by (destruct (_ =? 0); lia).
    destruct (cut r' (len t) ltac:(lia)) as (rt & z & -> & Lt & _). rewrite len_app in L'.
    rewrite put_le2_at with (pre := pre) (old := r8) (post := (rt ++ z) ++ tail); [|now rewrite <- !app_assoc|reflexivity|exact L8]. cbn [bind].
    rewrite map_u8 by exact HB.
    rewrite store_at with (pre := pre ++ little_endian 4 fourCC ++ little_endian 4 (Z.lor (len t) 1 + 1)) (old := rt) (post := z ++ tail);
      [|now rewrite <- !app_assoc|rewrite !len_app, !len_le; lia|exact Lt]. cbn [bind].
    rewrite <- le32_eq, HI, <- Z1. set (h := pre ++ str id ++ little_endian 4 (len (zero_ended t))).
    assert (HH : len h = len pre + 8) by (unfold h; rewrite !len_app, HS, len_le; lia).
    destruct z as [|z0 z]; [change (len []) with 0 in L'; destruct (_ =? 0); lia|].
    rewrite set_at with (pre := h ++ t) (x := z0) (post := z ++ tail); [|now rewrite <- app_assoc|rewrite len_app; lia]. cbn [bind]. rewrite len_cons in L'.
    assert (E : Z.land (len t) 1 = len t mod 2) by (change 1 with (Z.ones 1); now rewrite Z.land_ones by lia). rewrite Zmod_even in E.
    assert (GE : forall w : list Z, zero_ended t = t ++ w -> len tail <= len (w ++ tail) /\ pre ++ (str id ++ little_endian 4 (len (zero_ended t)) ++ zero_ended t) ++ tail = (h ++ t) ++ w ++ tail).
    { intros w Hw. split; [rewrite len_app; pose proof (len_nonneg w); lia|]. unfold h. rewrite Hw at 2. now rewrite <- !app_assoc. }
    assert (ZT : zero_ended t = t ++ (if Z.even (len t) then [0; 0] else [0])) by reflexivity.
    destruct (Z.even (len t)) eqn:Q2; rewrite E in *; cbn [Z.eqb] in *.
    + destruct z as [|z1 z]; [change (len []) with 0 in L'; lia|]. rewrite len_cons in L'. pose proof (len_nonneg z). destruct z as [|z2 z]; [|rewrite len_cons in L'; pose proof (len_nonneg z); lia].
      rewrite set_at with (pre := (h ++ t) ++ [0]) (x := z1) (post := tail); [|now rewrite <- !app_assoc|rewrite !len_app; change (len [0]) with 1; lia]. cbn [bind].
      destruct (GE _ ZT) as [_ G]. rewrite G. f_equal. f_equal; [lia|]. now rewrite <- !app_assoc.
    + destruct z as [|z1 z]; [|rewrite len_cons in L'; pose proof (len_nonneg z); lia].
      destruct (GE _ ZT) as [_ G]. rewrite G. f_equal. f_equal. lia.
Qed.

(* ---- the year ---- *)
Definition year_of (l : list Z) (year : Z) : Prop :=
  year <= 0 /\ l = [] \/ exists a b c d, digit a /\ digit b /\ digit c /\ digit d /\ year = 1000 * a + 100 * b + 10 * c + d /\ 0 < year
    /\ l = [48 + a; 48 + b; 48 + c; 48 + d].
Lemma date_year date y m d : date_syntax date y m d -> 0 <= y /\ (0 < y -> year_of (skipn (length date - 4) date) y).
Proof.
  intros H; destruct H; unfold digit in *; (split; [lia|]); intros Y; right; exists a, b, c, d; unfold digit; repeat (split; [lia|]); reflexivity.
Qed.
Lemma year_text_of inf l : year_text (i_date inf) l -> exists year, api_get_year inf = Ok year /\ year_of l year.
Proof.
  intros H. destruct H as [y m d D N|U].
  - destruct (date_queries_valid inf y m d D) as (E & _). destruct (date_year _ _ _ _ D) as [Y1 Y2]. exists y. split; [exact E|]. apply Y2. lia.
  - destruct (Z.eq_dec (check_date inf) (-1)) as [E|E].
    + assert (N : forall y m d, ~ date_syntax (i_date inf) y m d).
      { intros y m d D. pose proof (check_date_complete inf y m d D). pose proof (len_nonneg (i_date inf)). lia. }
      destruct (date_queries_invalid inf N) as (Y & _). exists (-1). split; [exact Y|]. left. split; [lia|reflexivity].
    + destruct (check_date_sound inf E) as (y & m & d & D). destruct (date_queries_valid inf y m d D) as (Y & _). rewrite (U y m d D) in Y.
      exists 0. split; [exact Y|]. left. split; [lia|reflexivity].
Qed.

Lemma put_year_ok l year pre rest : year_of l year -> len (info_chunk "ICRD" l) <= len rest ->
  put_wav_year (pre ++ rest) (len pre) year =
  Ok (len pre + len (info_chunk "ICRD" l), pre ++ info_chunk "ICRD" l ++ skipn (Z.to_nat (len (info_chunk "ICRD" l))) rest).
Proof.
  intros [[Y ->]|(a & b & c & d & Ha & Hb & Hc & Hd & -> & Y & ->)] HL; unfold put_wav_year.
  - destruct (0 <? year) eqn:Q; [lia|]. cbn [info_chunk app]. change (len []) with 0. rewrite Z.add_0_r. reflexivity.
  - set (year := 1000 * a + 100 * b + 10 * c + d) in *. destruct (0 <? year) eqn:Q; [|lia]. unfold digit in *. set (w := [48 + a; 48 + b; 48 + c; 48 + d]) in *.
    assert (HW : info_chunk "ICRD" w = (little_endian 4 1146241865 ++ little_endian 4 6) ++ [48 + a; 48 + b; 48 + c; 48 + d; 0; 0]) by reflexivity.
    rewrite HW in *. change (len ((little_endian 4 1146241865 ++ little_endian 4 6) ++ [48 + a; 48 + b; 48 + c; 48 + d; 0; 0])) with 14 in *.
    destruct (cut rest 14 ltac:(lia)) as (r & tail & RE & RL & <-). rewrite RE. clear RE HL.
    destruct (cut r 8 ltac:(lia)) as (r8 & r' & -> & L8 & _). rewrite len_app in RL.
    assert (R6 : exists x0 x1 x2 x3 x4 x5, r' = [x0; x1; x2; x3; x4; x5]).
    { do 6 (destruct r' as [|? r']; [rewrite ?len_cons in RL; change (len []) with 0 in RL; lia|]). destruct r' as [|? r']; [repeat eexists|].
      rewrite !len_cons in RL. pose proof (len_nonneg r'). lia. }
    destruct R6 as (x0 & x1 & x2 & x3 & x4 & x5 & ->). clear RL.
    assert (D1 : forall v, 0 <= v <= 9 -> u8 (48 + v) = 48 + v) by (intros v V; unfold u8; rewrite Z.mod_small; lia).
    rewrite put_le2_at with (pre := pre) (old := r8) (post := [x0; x1; x2; x3; x4; x5] ++ tail); [|now rewrite <- !app_assoc|reflexivity|exact L8]. cbn [bind].
    set (h := pre ++ (little_endian 4 1146241865 ++ little_endian 4 6)). rewrite app_assoc. fold h. assert (LH : len h = len pre + 8) by (unfold h; rewrite len_app; reflexivity).
    rewrite set_at with (pre := h ++ [x0; x1; x2]) (x := x3) (post := [x4; x5] ++ tail); [|now rewrite <- app_assoc|rewrite len_app; change (len [x0; x1; x2]) with 3; lia]. cbn [bind].
    rewrite set_at with (pre := h ++ [x0; x1]) (x := x2) (post := [u8 (48 + Z.rem (Z.quot year 1) 10); x4; x5] ++ tail); [|now rewrite <- !app_assoc|rewrite len_app; change (len [x0; x1]) with 2; lia]. cbn [bind].
    rewrite set_at with (pre := h ++ [x0]) (x := x1) (post := [u8 (48 + Z.rem (Z.quot year 10) 10); u8 (48 + Z.rem (Z.quot year 1) 10); x4; x5] ++ tail); [|now rewrite <- !app_assoc|rewrite len_app; change (len [x0]) with 1; lia]. cbn [bind].
    rewrite set_at with (pre := h) (x := x0) (post := [u8 (48 + Z.rem (Z.quot year 100) 10); u8 (48 + Z.rem (Z.quot year 10) 10); u8 (48 + Z.rem (Z.quot year 1) 10); x4; x5] ++ tail); [|now rewrite <- !app_assoc|lia]. cbn [bind].
    set (w0 := u8 (48 + Z.rem (Z.quot year 1000) 10)). set (w1 := u8 (48 + Z.rem (Z.quot year 100) 10)). set (w2 := u8 (48 + Z.rem (Z.quot year 10) 10)). set (w3 := u8 (48 + Z.rem (Z.quot year 1) 10)).
    rewrite set_at with (pre := h ++ [w0; w1; w2; w3]) (x := x4) (post := [x5] ++ tail); [|now rewrite <- !app_assoc|rewrite len_app; change (len [w0; w1; w2; w3]) with 4; lia]. cbn [bind].
    rewrite set_at with (pre := h ++ [w0; w1; w2; w3; 0]) (x := x5) (post := tail); [|now rewrite <- !app_assoc|rewrite len_app; change (len [w0; w1; w2; w3; 0]) with 5; lia]. cbn [bind].
    assert (W0 : w0 = 48 + a) by (unfold w0, year; rewrite Z.quot_div_nonneg, Z.rem_mod_nonneg by (try apply Z.div_pos; lia); rewrite D1 by lia; lia).
    assert (W1 : w1 = 48 + b) by (unfold w1, year; rewrite Z.quot_div_nonneg, Z.rem_mod_nonneg by (try apply Z.div_pos; lia); rewrite D1 by lia; lia).
    assert (W2 : w2 = 48 + c) by (unfold w2, year; rewrite Z.quot_div_nonneg, Z.rem_mod_nonneg by (try apply Z.div_pos; lia); rewrite D1 by lia; lia).
    assert (W3 : w3 = 48 + d) by (unfold w3, year; rewrite Z.quot_div_nonneg, Z.rem_mod_nonneg by (try apply Z.div_pos; lia); rewrite D1 by lia; lia).
    rewrite W0, W1, W2, W3. f_equal. f_equal. unfold h. now rewrite <- !app_assoc.
Qed.

(* ---- the whole header ---- *)
Definition info_items (title author year : list Z) : list Z := info_chunk "INAM" title ++ info_chunk "IART" author ++ info_chunk "ICRD" year.
Lemma list_chunk_eq title author year : list_chunk title author year = match info_items title author year with [] => [] | _ => chunk "LIST" (str "INFO" ++ info_items title author year) end.
Proof. unfold list_chunk, info_items. destruct (_ ++ _ ++ _); reflexivity. Qed.
Lemma info_chunk_nil id t : info_chunk id t = [] -> String.length id <> 0%nat -> t = [].
Proof. destruct t as [|c t]; [reflexivity|]. destruct id; [intros _ H; now destruct H|discriminate]. Qed.

Lemma skipn_cut (l : list Z) a b : 0 <= a -> 0 <= b -> skipn (Z.to_nat b) (skipn (Z.to_nat a) l) = skipn (Z.to_nat (a + b)) l.
Proof. intros H1 H2. rewrite skipn_skipn_plus. f_equal. lia. Qed.

Lemma put_list_ok inf year pre rest : len pre = 36 -> bytes (i_title inf) -> bytes (i_author inf) -> year_text (i_date inf) year ->
  len (list_chunk (i_title inf) (i_author inf) year) <= len rest ->
  put_wav_list (pre ++ rest) inf = Ok (36 + len (list_chunk (i_title inf) (i_author inf) year),
    pre ++ list_chunk (i_title inf) (i_author inf) year ++ skipn (Z.to_nat (len (list_chunk (i_title inf) (i_author inf) year))) rest).
Proof.
  intros LP BT BA Y HL. destruct (year_text_of inf year Y) as (y & EY & YO). unfold put_wav_list. rewrite EY. cbn [bind].
  rewrite list_chunk_eq in *. set (t := i_title inf) in *. set (a := i_author inf) in *.
  assert (C : ((0 <? len t) || (0 <? len a) || (0 <? y) = false /\ info_items t a year = []) \/ ((0 <? len t) || (0 <? len a) || (0 <? y) = true /\ info_items t a year <> [])).
  { unfold info_items. destruct t as [|t0 t']; [|right; split; [rewrite len_cons; pose proof (len_nonneg t'); lia|discriminate]].
    destruct a as [|a0 a']; [|right; split; [rewrite (len_cons a0); pose proof (len_nonneg a'); lia|discriminate]].
    destruct YO as [[Y1 ->]|(q & b & c & d & _ & _ & _ & _ & _ & Y1 & ->)]; [left; split; [change (len []) with 0; lia|reflexivity]|right; split; [change (len []) with 0; lia|discriminate]]. }
  destruct C as [[-> E]|[-> N]].
  - rewrite E. change (len []) with 0. cbn [app skipn Z.to_nat]. reflexivity.
  - assert (E : match info_items t a year with [] => [] | _ => chunk "LIST" (str "INFO" ++ info_items t a year) end = chunk "LIST" (str "INFO" ++ info_items t a year)) by (destruct (info_items t a year); [now destruct N|reflexivity]).
    rewrite E in *. clear E. unfold chunk in *. rewrite !len_app, len_le in *. change (len (str "LIST")) with 4 in *. change (len (str "INFO")) with 4 in *. change (Z.of_nat 4) with 4 in *.
    set (items := info_items t a year) in *. pose proof (len_nonneg items) as LI.
    destruct (cut rest 8 ltac:(lia)) as (r8 & rest1 & RE & L8 & _). destruct (cut rest1 4) as (r4 & rest2 & RE2 & L4 & _); [rewrite RE, len_app in HL; lia|].
    subst rest1. subst rest. rewrite !len_app in HL. assert (HI : len items <= len rest2) by lia.
    rewrite put_le_at with (pre := pre ++ r8) (old := r4) (post := rest2); [|now rewrite <- !app_assoc|rewrite len_app; lia|exact L4]. cbn [bind].
    set (b0 := (pre ++ r8) ++ little_endian 4 1330007625). rewrite app_assoc. fold b0. assert (B0 : len b0 = 48) by (unfold b0; rewrite !len_app, len_le; lia). rewrite <- B0.
    unfold items, info_items in HI, LI. rewrite !len_app in HI. pose proof (len_nonneg (info_chunk "INAM" t)). pose proof (len_nonneg (info_chunk "IART" a)). pose proof (len_nonneg (info_chunk "ICRD" year)).
    rewrite (put_metadata_ok "INAM") by (reflexivity || assumption || lia). cbn [bind].
    set (b1 := b0 ++ info_chunk "INAM" t). rewrite app_assoc. fold b1. assert (B1 : len b1 = len b0 + len (info_chunk "INAM" t)) by (unfold b1; now rewrite len_app). rewrite <- B1.
    assert (SK : forall n, 0 <= n <= len rest2 -> len (skipn (Z.to_nat n) rest2) = len rest2 - n) by (intros n Hn; unfold len in *; rewrite skipn_length; lia).
    rewrite (put_metadata_ok "IART") by (reflexivity || assumption || (rewrite SK; lia)). cbn [bind].
    set (b2 := b1 ++ info_chunk "IART" a). rewrite app_assoc. fold b2. assert (B2 : len b2 = len b1 + len (info_chunk "IART" a)) by (unfold b2; now rewrite len_app). rewrite <- B2.
    rewrite skipn_cut by lia. rewrite (put_year_ok year) by (assumption || (rewrite SK; lia)). cbn [bind]. rewrite skipn_cut by lia.
    assert (LI2 : len (info_chunk "INAM" t) + len (info_chunk "IART" a) + len (info_chunk "ICRD" year) = len items) by (unfold items, info_items; rewrite !len_app; lia). rewrite LI2.
    rewrite put_le2_at with (pre := pre) (old := r8) (post := (little_endian 4 1330007625 ++ items) ++ skipn (Z.to_nat (len items)) rest2).
    2: { unfold b2, b1, b0, items, info_items. now rewrite <- !app_assoc. }
    2: { now rewrite LP. }
    2: { exact L8. }
    cbn [bind]. f_equal. f_equal; [lia|]. replace (len b2 + len (info_chunk "ICRD" year) - 44) with (4 + len items) by lia.
    change (little_endian 4 1414744396) with (str "LIST"). change (little_endian 4 1330007625) with (str "INFO"). rewrite <- !app_assoc. do 5 f_equal.
    rewrite (app_assoc r8 r4 rest2). replace (4 + (4 + (4 + len items))) with (len (r8 ++ r4) + len items) by (rewrite len_app; lia).
    rewrite <- skipn_cut by (try apply len_nonneg; lia). f_equal. unfold len. rewrite Nat2Z.id, skipn_app, Nat.sub_diag, skipn_all. reflexivity.
Qed.

Lemma wav_header_ok (s : asap) f (metadata : bool) buffer year size extra hdr :
  let inf := m_info s in
  let c := i_channels inf in
  c = 1 \/ c = 2 -> 0 < m_currentSampleRate s -> m_currentSampleRate s * block_size f s <= int_max ->
  0 <= m_blocksPlayed s <= milliseconds_to_blocks (m_currentDuration s) s -> milliseconds_to_blocks (m_currentDuration s) s <= int_max ->
  bytes (i_title inf) -> bytes (i_author inf) -> year_text (i_date inf) year ->
  size = (milliseconds_to_blocks (m_currentDuration s) s - m_blocksPlayed s) * block_size f s ->
  extra = (if metadata then list_chunk (i_title inf) (i_author inf) year else []) ->
  hdr = wave_header c (m_currentSampleRate s) (bytes_per_sample f) extra size ->
  len hdr <= len buffer -> len hdr + size <= int_max ->
  api_wav_header buffer f metadata s = Ok (len hdr, hdr ++ skipn (Z.to_nat (len hdr)) buffer).
Proof.
  cbv zeta. intros HC HR HRB HP HT BT BA HY ES EX EH HL HI. unfold api_wav_header. cbv zeta.
  assert (BPS : bytes_per_sample f = if is_u8 f then 1 else 2) by (destruct f; reflexivity).
  assert (SH : Z.shiftl (i_channels (m_info s)) (if is_u8 f then 0 else 1) = block_size f s) by (unfold block_size; rewrite BPS; destruct (is_u8 f); rewrite Z.shiftl_mul_pow2 by lia; reflexivity).
  rewrite SH. assert (BS : 1 <= block_size f s <= 4) by (unfold block_size; rewrite BPS; destruct HC as [-> | ->], (is_u8 f); lia).
  assert (S0 : 0 <= size) by (rewrite ES; apply Z.mul_nonneg_nonneg; lia).
  assert (LH : len hdr = 44 + len extra).
  { rewrite EH. unfold wave_header, chunk. cbv zeta. rewrite !len_app, !len_le. change (len (str "RIFF")) with 4. change (len (str "WAVE")) with 4. change (len (str "fmt ")) with 4. change (len (str "data")) with 4. lia. }
  pose proof (len_nonneg extra) as LE0.
  assert (CK : forall v, 0 <= v <= int_max -> chk v = Ok v) by (intros v V; unfold chk, is_int; replace ((int_min <=? v) && (v <=? int_max)) with true by (unfold int_min, int_max in *; lia); reflexivity).
  rewrite CK by (split; [apply Z.mul_nonneg_nonneg; lia|exact HRB]). cbn [bind].
  rewrite CK by lia. cbn [bind]. rewrite <- ES. rewrite CK by lia. cbn [bind].
  destruct (cut buffer 36 ltac:(lia)) as (h36 & rest & EB & L36 & _).
  destruct (cut h36 8 ltac:(lia)) as (h8 & h28 & E1 & L8 & _). destruct (cut h28 4) as (w4 & h24 & E2 & L4 & _); [rewrite E1, len_app in L36; lia|].
  destruct (cut h24 8) as (f8 & h16 & E3 & LF & _); [rewrite E1, E2, !len_app in L36; lia|]. destruct (cut h16 4) as (g4 & h12 & E4 & LG & _); [rewrite E1, E2, E3, !len_app in L36; lia|].
  destruct (cut h12 8) as (k8 & k4 & E5 & LK & _); [rewrite E1, E2, E3, E4, !len_app in L36; lia|]. subst h12 h16 h24 h28 h36. rewrite !len_app in L36. assert (LK4 : len k4 = 4) by lia. clear L36.
  rewrite put_le_at with (pre := h8) (old := w4) (post := (f8 ++ g4 ++ k8 ++ k4) ++ rest); [|rewrite EB; now rewrite <- !app_assoc|lia|exact L4]. cbn [bind].
  rewrite put_le2_at with (pre := h8 ++ str "WAVE") (old := f8) (post := (g4 ++ k8 ++ k4) ++ rest); [|now rewrite <- !app_assoc|rewrite len_app; change (len (str "WAVE")) with 4; lia|exact LF]. cbn [bind].
  set (fm := little_endian 4 544501094 ++ little_endian 4 16).
  assert (LFM : len fm = 8) by reflexivity.
  rewrite store_at with (pre := h8 ++ str "WAVE" ++ fm) (old := g4) (post := (k8 ++ k4) ++ rest); [|now rewrite <- !app_assoc|rewrite !len_app, LFM; change (len (str "WAVE")) with 4; lia|exact LG]. cbn [bind].
  set (ch := [1; 0; u8 (i_channels (m_info s)); 0]).
  assert (LCH : len ch = 4) by reflexivity.
  rewrite put_le2_at with (pre := h8 ++ str "WAVE" ++ fm ++ ch) (old := k8) (post := k4 ++ rest); [|now rewrite <- !app_assoc|rewrite !len_app, LFM, LCH; change (len (str "WAVE")) with 4; lia|exact LK]. cbn [bind].
  set (rb := little_endian 4 (m_currentSampleRate s) ++ little_endian 4 (m_currentSampleRate s * block_size f s)).
  assert (LRB : len rb = 8) by (unfold rb; rewrite len_app, !len_le; reflexivity).
  rewrite store_at with (pre := h8 ++ str "WAVE" ++ fm ++ ch ++ rb) (old := k4) (post := rest); [|now rewrite <- !app_assoc|rewrite !len_app, LFM, LCH, LRB; change (len (str "WAVE")) with 4; lia|exact LK4]. cbn [bind].
  set (bb := [u8 (block_size f s); 0; u8 (Z.shiftl 8 (if is_u8 f then 0 else 1)); 0]).
  assert (LBB : len bb = 4) by reflexivity.
  set (mid := str "WAVE" ++ fm ++ ch ++ rb ++ bb). assert (LM : len mid = 28) by (unfold mid; rewrite !len_app, LFM, LCH, LRB, LBB; reflexivity).
  replace ((h8 ++ str "WAVE" ++ fm ++ ch ++ rb) ++ bb ++ rest) with ((h8 ++ mid) ++ rest) by (unfold mid; now rewrite <- !app_assoc).
  assert (LR : len rest = len buffer - 36) by (rewrite EB, !len_app; lia).
  assert (EI : (if metadata then put_wav_list ((h8 ++ mid) ++ rest) (m_info s) else Ok (36, (h8 ++ mid) ++ rest)) =
    Ok (36 + len extra, (h8 ++ mid) ++ extra ++ skipn (Z.to_nat (len extra)) rest)).
  { destruct metadata; subst extra.
    - apply put_list_ok; try assumption; [rewrite len_app; lia|]. lia.
    - reflexivity. }
  rewrite EI. cbn [bind]. rewrite CK by lia. cbn [bind].
  set (tail := skipn (Z.to_nat (len extra)) rest). assert (LT : len tail = len rest - len extra) by (unfold tail, len in *; rewrite skipn_length; lia).
  rewrite put_le2_at with (pre := []) (old := h8) (post := mid ++ extra ++ tail); [|now rewrite <- !app_assoc|reflexivity|exact L8]. cbn [bind].
  destruct (cut tail 8 ltac:(lia)) as (t8 & tl & ET & LT8 & ETL). rewrite ET.
  set (ri := little_endian 4 1179011410 ++ little_endian 4 (36 + len extra + size)). assert (LRI : len ri = 8) by (unfold ri; rewrite len_app, !len_le; reflexivity).
  rewrite put_le2_at with (pre := ri ++ mid ++ extra) (old := t8) (post := tl); [|now rewrite <- !app_assoc|rewrite !len_app; lia|exact LT8]. cbn [bind].
  f_equal. f_equal; [lia|].
  assert (TL : tl = skipn (Z.to_nat (len hdr)) buffer).
  { rewrite ETL. unfold tail. rewrite skipn_cut by lia. rewrite LH, EB. set (p := h8 ++ w4 ++ f8 ++ g4 ++ k8 ++ k4).
    assert (LP : len p = 36) by (unfold p; rewrite !len_app; lia). replace (44 + len extra) with (len p + (len extra + 8)) by lia. rewrite <- (skipn_cut (p ++ rest) (len p) (len extra + 8)) by lia. f_equal.
    unfold len. now rewrite Nat2Z.id, skipn_app, Nat.sub_diag, skipn_all. }
  rewrite <- TL, !app_assoc. f_equal. rewrite EH. unfold wave_header. cbv zeta. unfold chunk. rewrite !len_app, !len_le.
  change (len (str "WAVE")) with 4. change (len (str "fmt ")) with 4. change (len (str "data")) with 4. change (Z.of_nat 4) with 4. change (Z.of_nat 2) with 2.
  unfold ri, mid, fm, ch, rb, bb. change (little_endian 4 1179011410) with (str "RIFF"). change (little_endian 4 544501094) with (str "fmt "). change (little_endian 4 1635017060) with (str "data").
  replace (4 + (4 + (4 + (2 + (2 + (4 + (4 + (2 + 2))))))) + (len extra + (4 + 4)) + size) with (36 + len extra + size) by lia.
  replace (m_currentSampleRate s * i_channels (m_info s) * bytes_per_sample f) with (m_currentSampleRate s * block_size f s) by (unfold block_size; lia).
  fold (block_size f s).
  assert (X1 : [1; 0; u8 (i_channels (m_info s)); 0] = little_endian 2 1 ++ little_endian 2 (i_channels (m_info s))) by (destruct HC as [-> | ->]; reflexivity).
  assert (X2 : [u8 (block_size f s); 0; u8 (Z.shiftl 8 (if is_u8 f then 0 else 1)); 0] = little_endian 2 (block_size f s) ++ little_endian 2 (8 * bytes_per_sample f))
    by (unfold block_size; destruct HC as [-> | ->], f; reflexivity).
  rewrite X1, X2. rewrite <- !app_assoc.
  replace (4 + (4 + (4 + (2 + (2 + (4 + (4 + (2 + 2)))))) + (len extra + (4 + 4))) + size) with (36 + len extra + size) by lia. reflexivity.
Qed.

(* ---- while a song plays ---- *)
Definition remaining_size (f : sample_format) (s : asap) : Z :=
  (blocks_in (m_currentDuration s) (m_currentSampleRate s) - api_blocks_played s) * block_size f s.

Lemma wav_header_describes (s : asap) f (metadata : bool) buffer year hdr :
  listening 59 262143 s -> 0 < m_currentDuration s -> bytes (i_title (m_info s)) -> bytes (i_author (m_info s)) -> year_text (i_date (m_info s)) year ->
  hdr = wave_header (i_channels (m_info s)) (m_currentSampleRate s) (bytes_per_sample f)
          (if metadata then list_chunk (i_title (m_info s)) (i_author (m_info s)) year else [])
          ((blocks_in (m_currentDuration s) (m_currentSampleRate s) - api_blocks_played s) * block_size f s) ->
  len hdr <= len buffer -> len hdr + (blocks_in (m_currentDuration s) (m_currentSampleRate s) - api_blocks_played s) * block_size f s <= int_max ->
  api_wav_header buffer f metadata s = Ok (len hdr, hdr ++ skipn (Z.to_nat (len hdr)) buffer).
Proof.
  intros L D BT BA Y EH HL HI. destruct (any_tuned s L) as (T & C & R). pose proof (block_size_pos anything f s T) as BS.
  pose proof (blocks_in_count (m_currentDuration s) s D ltac:(lia) C) as BC. pose proof (tu_total _ _ T D) as TT.
  pose proof (pl_played _ _ _ (tu_playing _ _ T)) as P0. destruct (tu_info _ _ T) as [CH _]. unfold api_blocks_played in *. rewrite <- BC in *.
  eapply wav_header_ok with (year := year); try eassumption; try reflexivity; try lia.
  - apply Z.le_trans with (262143 * 4); [apply Z.mul_le_mono_nonneg; lia|unfold int_max; lia].
  - unfold countable in C. lia.
Qed.

Lemma wav_size_delivered s f buffer bufferLen n buffer' s' :
  listening 59 262143 s -> 0 < m_currentDuration s -> m_silenceCycles s <= 0 -> 0 <= bufferLen <= len buffer -> bufferLen <= int_max ->
  (blocks_in (m_currentDuration s) (m_currentSampleRate s) - api_blocks_played s) * block_size f s <= bufferLen ->
  api_generate buffer bufferLen f s = Ok (n, buffer', s') ->
  n = (blocks_in (m_currentDuration s) (m_currentSampleRate s) - api_blocks_played s) * block_size f s.
Proof.
  intros L D S Hb Hm HS E. destruct (any_tuned s L) as (T & C & R). pose proof (block_size_pos anything f s T) as BS.
  destruct (generate_counts s buffer bufferLen f n buffer' s' L Hb Hm E) as (N & [q ->] & _ & _ & P & LE & LT). rewrite Z.div_mul in * by lia. specialize (LE D).
  set (rest := blocks_in _ _ - _) in *. f_equal.
  assert (HQ : q < bufferLen / block_size f s \/ rest <= q).
  { destruct (Z_lt_ge_dec q rest) as [Q|Q]; [|lia]. left. apply Z.lt_le_trans with rest; [exact Q|]. apply Z.div_le_lower_bound; lia. }
  destruct HQ as [HQ|HQ]; [destruct (LT HQ) as [[X _]|[_ X]]; lia|lia].
Qed.

Lemma wav_size_sequence s k s1 f buffer bufferLen buffer' s' :
  listening 59 262143 s -> 0 < m_currentDuration s -> m_silenceCycles s <= 0 -> generates s k s1 ->
  block_size f s <= bufferLen <= len buffer -> bufferLen <= int_max -> api_generate buffer bufferLen f s1 = Ok (0, buffer', s') ->
  k = blocks_in (m_currentDuration s) (m_currentSampleRate s) - api_blocks_played s.
Proof.
  intros L D S G Hb Hm E. destruct (any_tuned s L) as (T & C & R). pose proof (block_size_pos anything f s T) as BS.
  cut (listening 59 262143 s1 /\ quiet_settings s1 = quiet_settings s /\ api_blocks_played s1 = api_blocks_played s + k).
  - intros (L1 & Q & P). unfold quiet_settings in Q. assert (Q1 : m_currentDuration s1 = m_currentDuration s) by congruence. assert (Q2 : m_currentSampleRate s1 = m_currentSampleRate s) by congruence.
    assert (Q3 : block_size f s1 = block_size f s) by (unfold block_size; f_equal; f_equal; congruence). assert (Q4 : m_silenceCycles s1 = m_silenceCycles s) by congruence.
    destruct (generate_counts s1 buffer bufferLen f 0 buffer' s' L1 ltac:(lia) Hm E) as (_ & _ & _ & _ & P1 & _ & LT). rewrite Q1, Q2, Q3, Q4, Z.div_0_l in * by lia.
    assert (0 < bufferLen / block_size f s) by (apply Z.div_str_pos; lia). destruct (LT ltac:(assumption)) as [[X _]|[_ X]]; lia.
  - clear - L G. induction G as [s|s k s1 buffer bufferLen f n buffer' s' G IH Hb Hm E].
    + split; [exact L|]. split; [reflexivity|lia].
    + destruct (IH L) as (L1 & Q & P). destruct (any_tuned s1 L1) as (T1 & C1 & R1).
      destruct (generate_counts s1 buffer bufferLen f n buffer' s' L1 Hb Hm E) as (N1 & _ & _ & _ & P2 & _).
      pose proof (wpg_ok _ _ _ _ _ (generate_tuned anything I I buffer bufferLen f s1 T1 Hb Hm) E) as (l & Dl). cbv beta iota in Dl.
      pose proof (de_set _ _ _ _ _ _ _ _ _ Dl) as Q2. rewrite Q in Q2. unfold quiet_settings in Q, Q2.
      assert (Q3 : block_size f s1 = block_size f s) by (unfold block_size; f_equal; f_equal; congruence). rewrite Q3 in P2.
      split; [exact (listen_generate _ _ _ _ _ _ _ _ _ L1 Hb Hm E)|]. split; [exact Q2|lia].
Qed.

(* the header of a song with texts a caller can set *)
Lemma info_chunk_len id t : len (str id) = 4 -> len (info_chunk id t) <= 10 + len t.
Proof.
  intros H. destruct t as [|c t]; [change (len (info_chunk id [])) with 0; pose proof (len_nonneg (@nil Z)); lia|]. unfold info_chunk, chunk. rewrite !len_app, len_le, H.
  destruct (len_zero_ended (c :: t)) as (_ & -> & _). destruct (_ =? 0); lia.
Qed.
Lemma info_chunk_even id t : len (str id) = 4 -> Z.even (len (info_chunk id t)) = true.
Proof.
  intros H. destruct t as [|c t]; [reflexivity|]. unfold info_chunk, chunk. rewrite !len_app, len_le, H. destruct (len_zero_ended (c :: t)) as (_ & _ & E).
  now rewrite !Z.even_add, E.
Qed.
Lemma list_chunk_len title author year : len title <= 127 -> len author <= 127 -> len year <= 4 -> len (list_chunk title author year) <= 298.
Proof.
  intros H1 H2 H3. rewrite list_chunk_eq. destruct (info_items title author year) as [|x l] eqn:E; [change (len []) with 0; lia|]. rewrite <- E. unfold chunk. rewrite !len_app, len_le.
  unfold info_items. rewrite !len_app. pose proof (info_chunk_len "ICRD" year eq_refl). change (len (str "LIST")) with 4. change (len (str "INFO")) with 4.
  assert (L1 : forall id t, len (str id) = 4 -> len t <= 127 -> len (info_chunk id t) <= 136).
  { intros id t I1 I2. destruct (Z.eq_dec (len t) 127) as [Q|Q]; [|pose proof (info_chunk_len id t I1); lia]. destruct t as [|c t]; [discriminate Q|]. unfold info_chunk, chunk. rewrite !len_app, len_le, I1.
    destruct (len_zero_ended (c :: t)) as (_ & -> & _). rewrite Q. cbn. lia. }
  pose proof (L1 "INAM"%string title eq_refl H1). pose proof (L1 "IART"%string author eq_refl H2). lia.
Qed.
Lemma list_chunk_even title author year : Z.even (len (list_chunk title author year)) = true.
Proof.
  rewrite list_chunk_eq. destruct (info_items title author year) as [|x l] eqn:E; [reflexivity|]. rewrite <- E. unfold chunk. rewrite !len_app, len_le.
  unfold info_items. rewrite !len_app, !Z.even_add, !info_chunk_even by reflexivity. reflexivity.
Qed.
