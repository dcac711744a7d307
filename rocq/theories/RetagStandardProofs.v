(* asapconv changing the TV standard of SAP files *)
From Coq Require Import String.
From Verif Require Import Base BaseFacts InfoModel InfoSpec InfoProofs NativeModel WriterModel WriteModel SapSpec SapWitness SapProofs SapWriteProofs SapLoadProofs OptionModel RetagModel RetagSpec RetagProofs RetagStandardSpec.

Lemma converted_in_standard b d n k : 0 <= k < n -> -1 <= d <= 5999999 -> (if (Z.to_nat k <? Z.to_nat n)%nat && (0 <? d) then convert_duration b d else d) = in_standard b d.
Proof.
  intros K D. replace (Z.to_nat k <? Z.to_nat n)%nat with true by (symmetry; apply Nat.ltb_lt; lia). cbn [andb]. unfold in_standard. destruct (Z.ltb_spec 0 d); [|reflexivity].
  destruct b; [apply to_ntsc_value; lia|apply to_pal_value; lia].
Qed.

Lemma restandardised fuel self name module inf o song target output file :
  named name sap_ext -> bytes module -> api_load fuel self (Some name) module = Ok inf -> named target sap_ext -> len output = 65000 ->
  0 <= song < i_songs inf -> 0 <= o_ntsc o -> (forall k, 0 <= k < i_songs inf -> std_duration o song inf k < 6000000) ->
  or_else (o_author o) (i_author inf) <> unknown_text -> or_else (o_name o) (i_title inf) <> unknown_text -> or_else (o_date o) (i_date inf) <> unknown_text ->
  conv_module false o target song inf module output = Ok file ->
  exists hdr, file = hdr ++ slice module (i_headerLen inf) (len module) /\
  forall fuel' self' name', named name' sap_ext -> exists inf3, api_load fuel' self' (Some name') file = Ok inf3 /\ i_headerLen inf3 = len hdr /\
    i_author inf3 = or_else (o_author o) (i_author inf) /\ i_title inf3 = or_else (o_name o) (i_title inf) /\ i_date inf3 = or_else (o_date o) (i_date inf) /\
    (i_type inf = SAP_B /\ i_fastplay inf = frame_lines (i_ntsc inf)) /\
    (i_songs inf3, i_defsong inf3, i_channels inf3, i_ntsc inf3, i_type inf3, i_fastplay inf3, i_init inf3, i_player inf3, i_covox inf3) =
    (i_songs inf, i_defsong inf, i_channels inf, asked_ntsc o, SAP_B, frame_lines (asked_ntsc o), i_init inf, i_player inf, i_covox inf) /\
    forall k, 0 <= k < i_songs inf ->
      ((forall j, 0 <= j <= k -> 0 <= std_duration o song inf j) -> at_ (i_durations inf3) k = std_duration o song inf k) /\
      ((exists j, 0 <= j <= k /\ std_duration o song inf j < 0) -> at_ (i_durations inf3) k = -1).
Proof.
  intros Nn Bm L Nt LO SG NT DM UA UT UD H.
  pose proof (sap_load_guarantees fuel self name module inf Nn Bm L) as G. destruct (sl_durations _ _ G) as (LD & FD). pose proof (sl_songs _ _ G) as SN.
  unfold conv_module, conv_info in H. destruct (apply_tags o inf) as [i1| | |] eqn:T; try discriminate. cbn [bind] in H. replace (0 <=? o_ntsc o) with true in H by lia.
  destruct (api_can_set_ntsc i1) eqn:CAN; [|discriminate]. destruct (api_set_ntsc i1 (negb (o_ntsc o =? 0))) as [n1| | |] eqn:SET; try discriminate. cbn [bind] in H.
  unfold apply_tags in T. destruct (tagged api_set_author (o_author o) inf) as [a1| | |] eqn:T1; try discriminate. cbn [bind] in T.
  destruct (tagged api_set_title (o_name o) a1) as [a2| | |] eqn:T2; try discriminate. cbn [bind] in T.
  apply tagged_author in T1. apply tagged_title in T2. apply tagged_date in T. destruct T1 as (ED1 & E1), T2 as (ED2 & E2), T as (ED3 & E3).
  pose proof (EdNtsc _ _ _ _ (ED3 inf (ED2 inf (ED1 inf (EdNone inf)))) SET) as ED. clear ED1 ED2 ED3.
  assert (LD1 : i_durations i1 = i_durations inf) by (subst i1 a2 a1; reflexivity). assert (LS1 : i_songs i1 = i_songs inf) by (subst i1 a2 a1; reflexivity).
  assert (TB : i_type inf = SAP_B /\ i_fastplay inf = frame_lines (i_ntsc inf)).
  { unfold api_can_set_ntsc in CAN. apply andb_true_iff in CAN. destruct CAN as (C1 & C2). apply Z.eqb_eq in C2. assert (Y1 : i_type i1 = i_type inf) by (subst i1 a2 a1; reflexivity).
    assert (Y2 : i_fastplay i1 = i_fastplay inf) by (subst i1 a2 a1; reflexivity). assert (Y3 : i_ntsc i1 = i_ntsc inf) by (subst i1 a2 a1; reflexivity). rewrite Y2, Y3 in C2. rewrite Y1 in C1. split; [now destruct (i_type inf)|exact C2]. }
  unfold api_set_ntsc in SET. rewrite LD1, LS1 in SET. replace (len (i_durations inf) <? i_songs inf) with false in SET by lia. apply Ok_inj in SET.
  set (ds := set_ntsc_durations (negb (o_ntsc o =? 0)) (Z.to_nat (i_songs inf)) (i_durations inf)) in *.
  assert (LDS : len ds = 32) by (unfold ds, len; rewrite set_ntsc_durations_length; exact LD).
  assert (ADS : forall k, 0 <= k < i_songs inf -> at_ ds k = in_standard (asked_ntsc o) (at_ (i_durations inf) k)).
  { intros k K. unfold ds, at_. rewrite set_ntsc_durations_nth by (unfold len in LD; lia). rewrite Forall_forall in FD.
    specialize (FD (nth (Z.to_nat k) (i_durations inf) 0) (nth_In (i_durations inf) 0 (n := Z.to_nat k) ltac:(unfold len in LD; lia))). cbn beta in FD. apply converted_in_standard; [lia|exact FD]. }
  clearbody ds.
  set (i2 := if 0 <=? o_address o then snd (api_set_music_address n1 (o_address o)) else n1) in *.
  assert (X2 : edited inf i2 /\ i2 = set_music (if (0 <=? o_address o) && (o_address o <? 65535) then o_address o else i_music inf) n1).
  { assert (M1 : i_music n1 = i_music inf) by (subst n1 i1 a2 a1; reflexivity). unfold i2. destruct (0 <=? o_address o) eqn:A; cbn [andb].
    - destruct (api_set_music_address n1 (o_address o)) as [b k] eqn:Q. cbn [snd]. split; [exact (EdMusic _ _ _ _ _ ED Q)|]. unfold api_set_music_address in Q.
      replace (o_address o <? 0) with false in Q by lia. cbn [orb] in Q. destruct (65535 <=? o_address o) eqn:B; [replace (o_address o <? 65535) with false by lia|replace (o_address o <? 65535) with true by lia]; injection Q as _ <-; [rewrite <- M1; now destruct n1|reflexivity].
    - split; [exact ED|]. rewrite <- M1. now destruct n1. }
  destruct X2 as (ED2 & E4). clearbody i2. clear ED.
  assert (D2 : i_durations i2 = ds) by (subst i2 n1 i1 a2 a1; reflexivity). assert (S2 : i_songs i2 = i_songs inf) by (subst i2 n1 i1 a2 a1; reflexivity).
  destruct (conv_song false o song i2) as [i3| | |] eqn:C; try discriminate. cbn [bind] in H.
  assert (X3 : edited inf i3 /\ i3 = set_durations (i_durations i3) i2 /\ len (i_durations i3) = 32 /\ (forall k, 0 <= k < i_songs inf -> at_ (i_durations i3) k = std_duration o song inf k)).
  { unfold conv_song, std_duration in *. destruct (0 <=? o_duration o) eqn:OD; cbn zeta in C.
    - destruct (api_set_duration i2 song (o_duration o)) as [[b q]| | |] eqn:Q; try discriminate. cbn [bind] in C. injection C as <-. split; [exact (EdDuration _ _ _ _ _ _ ED2 Q)|].
      unfold api_set_duration in Q. rewrite S2, D2 in Q. replace ((song <? 0) || (i_songs inf <=? song)) with false in Q by lia. unfold set_nth in Q. replace ((song <? 0) || (len ds <=? song)) with false in Q by lia.
      cbn [bind] in Q. injection Q as _ <-. split; [reflexivity|]. cbn [i_durations set_durations]. split; [rewrite len_upd; exact LDS|]. intros k K.
      destruct (Z.eqb_spec k song) as [-> | NE]; cbn [andb]; [apply at_upd_eq; lia|rewrite at_upd_ne by lia; apply ADS; exact K].
    - injection C as <-. split; [exact ED2|]. rewrite D2. split; [rewrite <- D2; now destruct i2|]. split; [exact LDS|]. intros k K. rewrite andb_false_r. apply ADS. exact K. }
  destruct X3 as (ED3 & E5 & L3 & N3). clear C.
  destruct (api_write target i3 module (o_tag o) (api_set_output output 0 65000)) as [[b w]| | |] eqn:W; try discriminate. cbn [bind] in H. destruct b; [|discriminate]. injection H as <-.
  assert (FL : firstn (Z.to_nat (w_off w)) (w_out w) = written (api_set_output output 0 65000) w).
  { unfold written, slice, api_set_output. cbn [w_off]. now rewrite Z.sub_0_r. }
  rewrite FL.
  assert (AU : i_author i3 = or_else (o_author o) (i_author inf)) by (rewrite E5; subst i2 n1 i1 a2 a1; reflexivity).
  assert (TI : i_title i3 = or_else (o_name o) (i_title inf)) by (rewrite E5; subst i2 n1 i1 a2 a1; reflexivity).
  assert (DA : i_date i3 = or_else (o_date o) (i_date inf)) by (rewrite E5; subst i2 n1 i1 a2 a1; reflexivity).
  assert (SO : i_songs i3 = i_songs inf) by (rewrite E5; subst i2 n1 i1 a2 a1; reflexivity).
  assert (KP : (known_songs i3 <= Z.to_nat (i_songs inf))%nat) by (unfold known_songs; rewrite SO; apply known_prefix_le).
  destruct (save_sap fuel self name module inf i3 target (o_tag o) (api_set_output output 0 65000) Nn Bm L ED3 Nt) as (hdr & _ & _ & HL & FA & SU); [split; cbn; lia|].
  exists hdr. destruct (Z_le_gt_dec (w_off (api_set_output output 0 65000) + len hdr + (len module - i_headerLen i3)) (w_end (api_set_output output 0 65000))) as [CC|CC]; [|destruct FA as (w2 & E); [lia|congruence]].
  destruct (SU CC) as (w2 & W2 & WR & _ & SL). rewrite W in W2. apply Ok_inj in W2. injection W2 as <-. split; [now rewrite <- HL|]. intros fuel' self' name' Nn'.
  destruct SL with (fuel' := fuel') (self' := self') (name' := name') as (inf3 & L3' & SS & HL3).
  - now rewrite AU.
  - now rewrite TI.
  - now rewrite DA.
  - apply Forall_forall. intros d I. apply (In_nth _ _ 0) in I. destruct I as (k & K & <-). rewrite firstn_length in K. assert (K32 : (k < 32)%nat) by (unfold len in L3; lia). rewrite nth_first by lia.
    assert (Q : at_ (i_durations i3) (Z.of_nat k) = nth k (i_durations i3) 0) by (unfold at_; now rewrite Nat2Z.id). rewrite <- Q, N3 by lia. apply DM. lia.
  - exact Nn'.
  - exists inf3. destruct SS as [Sa St Sd Ss Sf Sc Sn Sm Sp Si Sl Sv Smu Sdu Slo].
    split; [exact L3'|]. split; [exact HL3|]. split; [congruence|]. split; [congruence|]. split; [congruence|]. split; [exact TB|]. split; [rewrite Ss, Sf, Sc, Sn, Sm, Sp, Si, Sl, Sv, E5; destruct TB as (TB & _); subst i2 n1 i1 a2 a1; cbn; rewrite TB; reflexivity|].
    intros k K. pose proof (prefix_known (Z.to_nat (i_songs inf)) (i_durations i3) (Z.to_nat k) ltac:(lia) ltac:(unfold len in L3; lia)) as (P1 & P2).
      assert (VAL : at_ (i_durations inf3) k = if Nat.ltb (Z.to_nat k) (known_songs i3) then at_ (i_durations i3) k else -1) by (unfold at_; rewrite Sdu; apply first_nth; [unfold len in L3; lia|lia]).
      assert (KS : known_songs i3 = known_prefix (Z.to_nat (i_songs inf)) (i_durations i3)) by (unfold known_songs; now rewrite SO).
      assert (NJ : forall j, (j <= Z.to_nat k)%nat -> nth j (i_durations i3) 0 = std_duration o song inf (Z.of_nat j)) by (intros j J; rewrite <- N3 by lia; unfold at_; now rewrite Nat2Z.id).
      rewrite VAL, KS. split; intros A.
      + destruct (Nat.ltb_spec (Z.to_nat k) (known_prefix (Z.to_nat (i_songs inf)) (i_durations i3))) as [Q|Q]; [apply N3; lia|]. exfalso. assert (Z.to_nat k < known_prefix (Z.to_nat (i_songs inf)) (i_durations i3))%nat; [|lia]. apply P1. intros j J. rewrite NJ by exact J. apply A. lia.
      + destruct (Nat.ltb_spec (Z.to_nat k) (known_prefix (Z.to_nat (i_songs inf)) (i_durations i3))) as [Q|Q]; [|reflexivity]. exfalso. assert (known_prefix (Z.to_nat (i_songs inf)) (i_durations i3) <= Z.to_nat k)%nat; [|lia].
        apply P2. destruct A as (j & J & B). exists (Z.to_nat j). split; [lia|]. rewrite NJ by lia. rewrite Z2Nat.id by lia. exact B.
Qed.
