(* The texts of RMT modules *)
From Verif Require Import Base BaseFacts Loop InfoModel InfoSpec InfoProofs NativeModel NativeSpec SapSpec SapProofs SapLoadProofs NativeProofs NativeLoadProofs WindowSpec SaveProofs LoadSpec LoadProofs NamesModel NamesSpec.

Lemma shown_ok c : (if is_valid_char c then c else 32) = shown c.
Proof. reflexivity. Qed.

Lemma names_loop f n i : 0 <= i - 1 -> n = Z.to_nat (len f - i) -> exists r, names_from f n i = Ok r /\
  ((first_zero f (i - 1) (r - 1) /\ r < len f) \/ (r = -1 /\ forall j, first_zero f (i - 1) j -> j = len f - 1)).
Proof.
  revert i. induction n as [|n IH]; intros i Hi Hn; cbn [names_from].
  - exists (-1). split; [reflexivity|]. right. split; [reflexivity|]. intros j (J & _). lia.
  - rewrite get_ok by lia. cbn [bind]. destruct (Z.eqb_spec (at_ f (i - 1)) 0) as [Z0|Z0].
    + exists i. split; [reflexivity|]. left. split; [|lia]. split; [lia|]. split; [exact Z0|]. intros k K. lia.
    + destruct (IH (i + 1) ltac:(lia) ltac:(lia)) as (r & E & R). exists r. split; [exact E|]. replace (i + 1 - 1) with i in R by lia. destruct R as [[(R1 & R2 & R3) R4]|[R1 R2]].
      * left. split; [|exact R4]. split; [lia|]. split; [exact R2|]. intros k K. destruct (Z.eq_dec k (i - 1)) as [->|D]; [exact Z0|apply R3; lia].
      * right. split; [exact R1|]. intros j (J1 & J2 & J3). apply R2. destruct (Z.eq_dec j (i - 1)) as [->|D]; [contradiction|]. split; [lia|]. split; [exact J2|]. intros k K. apply J3. lia.
Qed.

Lemma title_loop f n i t : 0 <= i -> rmt_title f n i = Ok t -> exists e, i <= e <= i + Z.of_nat n /\ t = map shown (slice f i e) /\ len t = e - i /\
  (forall k, i <= k < e -> k < len f /\ at_ f k <> 0) /\ (e = i + Z.of_nat n \/ len f <= e \/ at_ f e = 0).
Proof.
  revert i t. induction n as [|n IH]; intros i t Hi E; cbn [rmt_title] in E.
  - injection E as <-. exists i. rewrite slice_nil. cbn. repeat split; try lia.
  - destruct (Z.ltb_spec i (len f)) as [L|L]; [|injection E as <-; exists i; rewrite slice_nil; cbn [map]; repeat split; try lia; cbn; lia].
    rewrite get_ok in E by lia. cbn [bind] in E. destruct (Z.eqb_spec (at_ f i) 0) as [Z0|Z0].
    + injection E as <-. exists i. rewrite slice_nil. cbn [map]. split; [lia|]. split; [reflexivity|]. split; [cbn; lia|]. split; [lia|]. right. right. exact Z0.
    + apply bind_ok in E. destruct E as (r & E1 & E). injection E as <-. destruct (IH (i + 1) r ltac:(lia) E1) as (e & E2 & E3 & E4 & E5 & E6). exists e. split; [lia|].
      assert (EL : e <= len f) by (destruct (Z.eq_dec e (i + 1)) as [->|D]; [lia|destruct (E5 (e - 1) ltac:(lia)); lia]).
      split; [rewrite slice_cons by lia; cbn [map]; rewrite shown_ok; congruence|]. split; [rewrite len_cons; lia|].
      split; [|destruct E6 as [E6|E6]; [left; lia|right; exact E6]]. intros k K. destruct (Z.eq_dec k i) as [->|D]; [lia|apply E5; lia].
Qed.

Lemma module_music inf f inf' : parse_module inf f = Ok inf' -> i_music inf' = file_word f 2 /\ 5 < len f /\ (0 <= 6 + (file_word f 4 + 1 - file_word f 2)).
Proof.
  intros E. unfold parse_module in E. apply bind_ok in E. destruct E as (m0 & G0 & E). apply bind_ok in E. destruct E as (m1 & G1 & E).
  iff C1 E. apply bind_ok in E. destruct E as (a & G2 & E). apply bind_ok in E. destruct E as (z & G3 & E).
  apply get_word_inv' in G2. apply get_word_inv' in G3. destruct G2 as (_ & _ & ->), G3 as (_ & L5 & ->).
  iff C2 E. cbv zeta in E.
  destruct (Z.eqb_spec (6 + (file_word f 4 + 1 - file_word f 2)) (len f)) as [Q|Q]; [injection E as <-; split; [reflexivity|lia]|].
  iff C3 E. apply bind_ok in E. destruct E as (ia & G4 & E). apply get_word_inv' in G4. destruct G4 as (P4 & Q4 & ->). iff C4 E.
  apply bind_ok in E. destruct E as (il & G5 & E). iff C5 E. injection E as <-. split; [reflexivity|lia].
Qed.

Lemma rmt_texts fuel self name f inf : named name rmt_ext -> bytes f -> len (i_songPos self) = 32 -> api_load fuel self (Some name) f = Ok inf ->
  i_type inf = RMT /\ 5 < len f /\ 4 <= text_start f /\ rmt_title f 127 (text_start f) = Ok (i_title inf).
Proof.
  intros Hn Hb Hp E. assert (Hin : In rmt_ext native_exts) by (vm_compute; tauto).
  assert (T : i_type inf = RMT).
  { destruct (native_file_result _ _ _ _ _ _ Hin Hn Hb Hp E) as ((_ & T & _) & _). unfold native_type in T. repeat (destruct T as [[X T]|T]; [try discriminate X; try exact T; exfalso; vm_compute in X; intuition discriminate|]). destruct T as [X _]. discriminate X. }
  split; [exact T|]. destruct (load_named fuel self name rmt_ext f Hn (native_supported _ Hin)) as [n EL]. rewrite EL in E. clear EL T.
  change (packed_of rmt_ext) with 7630194 in E. unfold load_packed in E. repeat match type of E with context [?a =? ?b] => let v := eval vm_compute in (a =? b) in change (a =? b) with v in E end; cbv iota in E; cbn [orb] in E.
  set (i0 := load_defaults _) in E. clearbody i0. unfold parse_rmt in E.
  apply bind_ok in E. destruct E as (v & _ & E). destruct (negb v); [discriminate E|]. apply bind_ok in E. destruct E as (m9 & _ & E). apply bind_ok in E. destruct E as ([i1 ps] & _ & E).
  apply bind_ok in E. destruct E as (pf & _ & E). destruct (_ || _); [discriminate E|]. apply bind_ok in E. destruct E as (i2 & M & E). destruct (module_music _ _ _ M) as (M1 & M2 & M3).
  apply bind_ok in E. destruct E as (last & L & E). apply get_word_inv' in L. destruct L as (_ & _ & ->). apply bind_ok in E. destruct E as (song & _ & E). cbv zeta in E.
  apply bind_ok in E. destruct E as (extra & _ & E). destruct (256 <=? _); [discriminate E|]. apply bind_ok in E. destruct E as (i3 & _ & E). destruct (_ =? 0); [discriminate E|].
  apply bind_ok in E. destruct E as (t & TT & E). injection E as <-. rewrite M1 in TT. cbn [i_title set_title]. split; [exact M2|]. unfold text_start. split; [lia|].
  replace (6 + (file_word f 4 + 1 - file_word f 2) + 4) with (10 + (file_word f 4 + 1 - file_word f 2)) by lia. exact TT.
Qed.

Lemma names_ok fuel self name f inf : named name rmt_ext -> bytes f -> len (i_songPos self) = 32 -> api_load fuel self (Some name) f = Ok inf ->
  exists r, api_instrument_names_offset inf f = Ok r /\ names_at f r.
Proof.
  intros Hn Hb Hp E. destruct (rmt_texts fuel self name f inf Hn Hb Hp E) as (T & L & S & _). unfold api_instrument_names_offset. rewrite T. cbn [module_type_eqb negb].
  rewrite !get_word_ok by lia. cbn [bind]. cbv zeta. unfold names_at, text_start in *.
  replace (6 + (file_word f 4 + 1 - file_word f 2) + 4) with (file_word f 4 - file_word f 2 + 12 - 1) in * by lia. apply names_loop; [lia|reflexivity].
Qed.

Lemma title_ok fuel self name f inf : named name rmt_ext -> bytes f -> len (i_songPos self) = 32 -> api_load fuel self (Some name) f = Ok inf ->
  exists e, title_end f e /\ i_title inf = map shown (slice f (text_start f) e).
Proof.
  intros Hn Hb Hp E. destruct (rmt_texts fuel self name f inf Hn Hb Hp E) as (_ & L & S & R). destruct (title_loop f 127 (text_start f) _ ltac:(lia) R) as (e & E1 & E2 & _ & E4 & E5).
  exists e. split; [|exact E2]. split; [lia|]. split; [exact E4|]. destruct E5 as [E5|E5]; [left; lia|right; exact E5].
Qed.

(* what lies between the title and the names *)
Lemma names_follow fuel self name f inf r : named name rmt_ext -> bytes f -> len (i_songPos self) = 32 -> api_load fuel self (Some name) f = Ok inf ->
  api_instrument_names_offset inf f = Ok r -> r <> -1 -> r - 1 <= text_start f + 127 -> i_title inf = map shown (slice f (text_start f) (r - 1)) /\ at_ f (r - 1) = 0.
Proof.
  intros Hn Hb Hp E ER R1 R2. destruct (names_ok fuel self name f inf Hn Hb Hp E) as (r' & E' & N). rewrite ER in E'. injection E' as <-. destruct N as [[(N1 & N2 & N3) N4]|[N _]]; [|contradiction].
  destruct (title_ok fuel self name f inf Hn Hb Hp E) as (e & (T1 & T2 & T3) & T). split; [|exact N2]. replace (r - 1) with e; [exact T|].
  destruct (Z.lt_trichotomy e (r - 1)) as [D|[D|D]]; [|exact D|].
  - exfalso. destruct T3 as [T3|[T3|T3]]; [lia|lia|]. apply (N3 e); [lia|exact T3].
  - exfalso. destruct (T2 (r - 1) ltac:(lia)) as [_ X]. contradiction.
Qed.
