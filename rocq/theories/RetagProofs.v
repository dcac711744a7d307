(* asapconv changing the tags of SAP files *)
From Coq Require Import String.
From Verif Require Import Base BaseFacts InfoModel InfoSpec InfoProofs NativeModel WriterModel WriteModel SapSpec SapWitness SapProofs SapWriteProofs SapLoadProofs OptionModel RetagModel RetagSpec.

Lemma tagged_author v inf inf' : tagged api_set_author v inf = Ok inf' -> (forall i, edited i inf -> edited i inf') /\ inf' = set_author (or_else v (i_author inf)) inf.
Proof.
  destruct v as [t|]; cbn [tagged or_else]; [|intros [= <-]; split; [auto|now destruct inf]]. unfold api_set_author. destruct (check_valid_text t) eqn:C; [|discriminate]. intros [= <-].
  split; [|reflexivity]. intros i E. apply (EdAuthor i inf t true); [exact E|]. unfold api_set_author. now rewrite C.
Qed.
Lemma tagged_title v inf inf' : tagged api_set_title v inf = Ok inf' -> (forall i, edited i inf -> edited i inf') /\ inf' = set_title (or_else v (i_title inf)) inf.
Proof.
  destruct v as [t|]; cbn [tagged or_else]; [|intros [= <-]; split; [auto|now destruct inf]]. unfold api_set_title. destruct (check_valid_text t) eqn:C; [|discriminate]. intros [= <-].
  split; [|reflexivity]. intros i E. apply (EdTitle i inf t true); [exact E|]. unfold api_set_title. now rewrite C.
Qed.
Lemma tagged_date v inf inf' : tagged api_set_date v inf = Ok inf' -> (forall i, edited i inf -> edited i inf') /\ inf' = set_date (or_else v (i_date inf)) inf.
Proof.
  destruct v as [t|]; cbn [tagged or_else]; [|intros [= <-]; split; [auto|now destruct inf]]. unfold api_set_date. destruct (check_valid_text t) eqn:C; [|discriminate]. intros [= <-].
  split; [|reflexivity]. intros i E. apply (EdDate i inf t true); [exact E|]. unfold api_set_date. now rewrite C.
Qed.

Lemma nth_first {A} n (l : list A) k d : (k < n)%nat -> nth k (firstn n l) d = nth k l d.
Proof. revert l k. induction n as [|n IH]; intros l k K; [lia|]. destruct l as [|x l]; [reflexivity|]. destruct k; [reflexivity|]. cbn [firstn nth]. apply IH. lia. Qed.

(* the known durations, as they are loaded again *)
Lemma prefix_known n l k : (k < n)%nat -> (n <= length l)%nat ->
  ((forall j, (j <= k)%nat -> 0 <= nth j l 0) -> (k < known_prefix n l)%nat) /\ ((exists j, (j <= k)%nat /\ nth j l 0 < 0) -> (known_prefix n l <= k)%nat).
Proof.
  revert l k. induction n as [|n IH]; intros l k K L; [lia|]. destruct l as [|d l]; [cbn in L; lia|]. cbn [List.length] in L. cbn [known_prefix]. split.
  - intros H. pose proof (H O ltac:(lia)) as H0. cbn in H0. replace (0 <=? d) with true by lia. destruct k as [|k]; [lia|].
    apply Nat.lt_succ_r. apply (proj1 (IH l k ltac:(lia) ltac:(lia))). intros j J. exact (H (S j) ltac:(lia)).
  - intros (j & J & H). destruct j as [|j]; [cbn in H; replace (0 <=? d) with false by lia; lia|]. cbn [nth] in H. destruct (0 <=? d); [|lia]. destruct k as [|k]; [lia|].
    apply le_n_S. apply (proj2 (IH l k ltac:(lia) ltac:(lia))). exists j. split; [lia|exact H].
Qed.
Lemma first_nth {A} n (d e : A) l k : (n <= length l)%nat -> (k < 32)%nat -> nth k (first_of_32 n d l) e = if Nat.ltb k n then nth k l e else d.
Proof.
  intros L K. unfold first_of_32. destruct (Nat.ltb_spec k n).
  - rewrite app_nth1 by (rewrite firstn_length; lia). rewrite <- (firstn_skipn n l) at 2. now rewrite app_nth1 by (rewrite firstn_length; lia).
  - rewrite app_nth2 by (rewrite firstn_length; lia). rewrite firstn_length, Nat.min_l by lia. rewrite (nth_indep _ e d) by (rewrite repeat_length; lia). apply nth_repeat.
Qed.

Lemma retagged fuel self name module inf o song target output file :
  named name sap_ext -> bytes module -> api_load fuel self (Some name) module = Ok inf -> named target sap_ext -> len output = 65000 ->
  0 <= song < i_songs inf -> o_ntsc o < 0 -> o_duration o < 6000000 ->
  or_else (o_author o) (i_author inf) <> unknown_text -> or_else (o_name o) (i_title inf) <> unknown_text -> or_else (o_date o) (i_date inf) <> unknown_text ->
  conv_module false o target song inf module output = Ok file ->
  exists hdr, file = hdr ++ slice module (i_headerLen inf) (len module) /\
  forall fuel' self' name', named name' sap_ext -> exists inf3, api_load fuel' self' (Some name') file = Ok inf3 /\ i_headerLen inf3 = len hdr /\
    i_author inf3 = or_else (o_author o) (i_author inf) /\ i_title inf3 = or_else (o_name o) (i_title inf) /\ i_date inf3 = or_else (o_date o) (i_date inf) /\
    (i_songs inf3, i_defsong inf3, i_channels inf3, i_ntsc inf3, i_type inf3, i_fastplay inf3, i_init inf3, i_player inf3, i_covox inf3) =
    (i_songs inf, i_defsong inf, i_channels inf, i_ntsc inf, i_type inf, i_fastplay inf, i_init inf, i_player inf, i_covox inf) /\
    (i_type inf = SAP_C -> i_music inf3 = if (0 <=? o_address o) && (o_address o <? 65535) then o_address o else i_music inf) /\
    forall k, 0 <= k < i_songs inf ->
      ((forall j, 0 <= j <= k -> 0 <= new_duration o song inf j) -> at_ (i_durations inf3) k = new_duration o song inf k) /\
      ((exists j, 0 <= j <= k /\ new_duration o song inf j < 0) -> at_ (i_durations inf3) k = -1).
Proof.
  intros Nn Bm L Nt LO SG NT DM UA UT UD H.
  pose proof (sap_load_guarantees fuel self name module inf Nn Bm L) as G. destruct (sl_durations _ _ G) as (LD & FD). pose proof (sl_songs _ _ G) as SN.
  unfold conv_module, conv_info in H. destruct (apply_tags o inf) as [i1| | |] eqn:T; try discriminate. cbn [bind] in H. replace (0 <=? o_ntsc o) with false in H by lia. cbn [bind] in H.
  unfold apply_tags in T. destruct (tagged api_set_author (o_author o) inf) as [a1| | |] eqn:T1; try discriminate. cbn [bind] in T.
  destruct (tagged api_set_title (o_name o) a1) as [a2| | |] eqn:T2; try discriminate. cbn [bind] in T.
  apply tagged_author in T1. apply tagged_title in T2. apply tagged_date in T. destruct T1 as (ED1 & E1), T2 as (ED2 & E2), T as (ED3 & E3).
  pose proof (ED3 inf (ED2 inf (ED1 inf (EdNone inf)))) as ED. clear ED1 ED2 ED3.
  set (i2 := if 0 <=? o_address o then snd (api_set_music_address i1 (o_address o)) else i1) in *.
  assert (X2 : edited inf i2 /\ i2 = set_music (if (0 <=? o_address o) && (o_address o <? 65535) then o_address o else i_music inf) i1).
  { assert (M1 : i_music i1 = i_music inf) by (subst i1 a2 a1; reflexivity). unfold i2. destruct (0 <=? o_address o) eqn:A; cbn [andb].
    - destruct (api_set_music_address i1 (o_address o)) as [b k] eqn:Q. cbn [snd]. split; [exact (EdMusic _ _ _ _ _ ED Q)|]. unfold api_set_music_address in Q.
      replace (o_address o <? 0) with false in Q by lia. cbn [orb] in Q. destruct (65535 <=? o_address o) eqn:B; [replace (o_address o <? 65535) with false by lia|replace (o_address o <? 65535) with true by lia]; injection Q as _ <-; [rewrite <- M1; now destruct i1|reflexivity].
    - split; [exact ED|]. rewrite <- M1. now destruct i1. }
  destruct X2 as (ED2 & E4). clearbody i2. clear ED.
  assert (D2 : i_durations i2 = i_durations inf) by (subst i2 i1 a2 a1; reflexivity). assert (S2 : i_songs i2 = i_songs inf) by (subst i2 i1 a2 a1; reflexivity).
  destruct (conv_song false o song i2) as [i3| | |] eqn:C; try discriminate. cbn [bind] in H.
  assert (X3 : edited inf i3 /\ i3 = set_durations (i_durations i3) i2 /\ len (i_durations i3) = 32 /\ (forall k, 0 <= k < 32 -> at_ (i_durations i3) k = new_duration o song inf k)).
  { unfold conv_song, new_duration in *. destruct (0 <=? o_duration o) eqn:OD; cbn zeta in C.
    - destruct (api_set_duration i2 song (o_duration o)) as [[b q]| | |] eqn:Q; try discriminate. cbn [bind] in C. injection C as <-. split; [exact (EdDuration _ _ _ _ _ _ ED2 Q)|].
      unfold api_set_duration in Q. rewrite S2, D2 in Q. replace ((song <? 0) || (i_songs inf <=? song)) with false in Q by lia. unfold set_nth in Q. replace ((song <? 0) || (len (i_durations inf) <=? song)) with false in Q by lia.
      cbn [bind] in Q. injection Q as _ <-. split; [reflexivity|]. cbn [i_durations set_durations]. split; [rewrite len_upd; exact LD|]. intros k K.
      destruct (Z.eqb_spec k song) as [-> | NE]; cbn [andb]; [apply at_upd_eq; lia|apply at_upd_ne; lia].
    - injection C as <-. split; [exact ED2|]. rewrite D2. split; [rewrite <- D2; now destruct i2|]. split; [exact LD|]. intros k K. now rewrite andb_false_r. }
  destruct X3 as (ED3 & E5 & L3 & N3). clear C.
  destruct (api_write target i3 module (o_tag o) (api_set_output output 0 65000)) as [[b w]| | |] eqn:W; try discriminate. cbn [bind] in H. destruct b; [|discriminate]. injection H as <-.
  assert (FL : firstn (Z.to_nat (w_off w)) (w_out w) = written (api_set_output output 0 65000) w).
  { unfold written, slice, api_set_output. cbn [w_off]. now rewrite Z.sub_0_r. }
  rewrite FL.
  assert (AU : i_author i3 = or_else (o_author o) (i_author inf)) by (rewrite E5; subst i2 i1 a2 a1; reflexivity).
  assert (TI : i_title i3 = or_else (o_name o) (i_title inf)) by (rewrite E5; subst i2 i1 a2 a1; reflexivity).
  assert (DA : i_date i3 = or_else (o_date o) (i_date inf)) by (rewrite E5; subst i2 i1 a2 a1; reflexivity).
  assert (SO : i_songs i3 = i_songs inf) by (rewrite E5; subst i2 i1 a2 a1; reflexivity).
  assert (KP : (known_songs i3 <= Z.to_nat (i_songs inf))%nat) by (unfold known_songs; rewrite SO; apply known_prefix_le).
  destruct (save_sap fuel self name module inf i3 target (o_tag o) (api_set_output output 0 65000) Nn Bm L ED3 Nt) as (hdr & _ & _ & HL & FA & SU); [split; cbn; lia|].
  exists hdr. destruct (Z_le_gt_dec (w_off (api_set_output output 0 65000) + len hdr + (len module - i_headerLen i3)) (w_end (api_set_output output 0 65000))) as [CC|CC]; [|destruct FA as (w2 & E); [lia|congruence]].
  destruct (SU CC) as (w2 & W2 & WR & _ & SL). rewrite W in W2. apply Ok_inj in W2. injection W2 as <-. split; [now rewrite <- HL|]. intros fuel' self' name' Nn'.
  destruct SL with (fuel' := fuel') (self' := self') (name' := name') as (inf3 & L3' & SS & HL3).
  - now rewrite AU.
  - now rewrite TI.
  - now rewrite DA.
  - apply Forall_forall. intros d I. apply (In_nth _ _ 0) in I. destruct I as (k & K & <-). rewrite firstn_length in K. assert (K32 : (k < 32)%nat) by (unfold len in L3; lia). rewrite nth_first by lia.
    assert (Q : at_ (i_durations i3) (Z.of_nat k) = nth k (i_durations i3) 0) by (unfold at_; now rewrite Nat2Z.id). rewrite <- Q, N3 by lia. unfold new_duration. destruct ((Z.of_nat k =? song) && (0 <=? o_duration o)); [exact DM|].
    rewrite Forall_forall in FD. unfold at_. specialize (FD (nth (Z.to_nat (Z.of_nat k)) (i_durations inf) 0) (nth_In (i_durations inf) 0 (n := Z.to_nat (Z.of_nat k)) ltac:(unfold len in LD; lia))). cbn beta in FD. lia.
  - exact Nn'.
  - exists inf3. destruct SS as [Sa St Sd Ss Sf Sc Sn Sm Sp Si Sl Sv Smu Sdu Slo].
    split; [exact L3'|]. split; [exact HL3|]. split; [congruence|]. split; [congruence|]. split; [congruence|]. split; [rewrite Ss, Sf, Sc, Sn, Sm, Sp, Si, Sl, Sv, E5; subst i2 i1 a2 a1; reflexivity|].
    split.
    + intros TY. assert (TY3 : i_type i3 = SAP_C) by (rewrite E5; subst i2 i1 a2 a1; exact TY). rewrite (Smu TY3), E5. subst i2. reflexivity.
    + intros k K. pose proof (prefix_known (Z.to_nat (i_songs inf)) (i_durations i3) (Z.to_nat k) ltac:(lia) ltac:(unfold len in L3; lia)) as (P1 & P2).
      assert (VAL : at_ (i_durations inf3) k = if Nat.ltb (Z.to_nat k) (known_songs i3) then at_ (i_durations i3) k else -1) by (unfold at_; rewrite Sdu; apply first_nth; [unfold len in L3; lia|lia]).
      assert (KS : known_songs i3 = known_prefix (Z.to_nat (i_songs inf)) (i_durations i3)) by (unfold known_songs; now rewrite SO).
      assert (NJ : forall j, (j <= Z.to_nat k)%nat -> nth j (i_durations i3) 0 = new_duration o song inf (Z.of_nat j)) by (intros j J; rewrite <- N3 by lia; unfold at_; now rewrite Nat2Z.id).
      rewrite VAL, KS. split; intros A.
      * destruct (Nat.ltb_spec (Z.to_nat k) (known_prefix (Z.to_nat (i_songs inf)) (i_durations i3))) as [Q|Q]; [apply N3; lia|]. exfalso. assert (Z.to_nat k < known_prefix (Z.to_nat (i_songs inf)) (i_durations i3))%nat; [|lia]. apply P1. intros j J. rewrite NJ by exact J. apply A. lia.
      * destruct (Nat.ltb_spec (Z.to_nat k) (known_prefix (Z.to_nat (i_songs inf)) (i_durations i3))) as [Q|Q]; [|reflexivity]. exfalso. assert (known_prefix (Z.to_nat (i_songs inf)) (i_durations i3) <= Z.to_nat k)%nat; [|lia].
        apply P2. destruct A as (j & J & B). exists (Z.to_nat j). split; [lia|]. rewrite NJ by lia. rewrite Z2Nat.id by lia. exact B.
Qed.

(* no undefined behaviour, whatever the options *)
Lemma edited_durations i j : edited i j -> i_songs j = i_songs i /\ len (i_durations j) = len (i_durations i).
Proof.
  assert (SN : forall b n l, length (set_ntsc_durations b n l) = length l) by (intros b n; induction n as [|n IH]; intros [|x l]; cbn; auto).
  induction 1 as [|? ? ? ? ? ? IH H|? ? ? ? ? ? IH H|? ? ? ? ? ? IH H|? ? ? ? ? ? IH H|? ? ? ? ? ? ? IH H|? ? ? ? ? ? ? IH H|? ? ? ? ? IH H|? ? ? ? ? ? IH H]; [easy|..]; destruct IH as (IH1 & IH2).
  all: unfold api_set_author, api_set_title, api_set_date, api_set_default_song, api_set_duration, api_set_loop, api_set_ntsc, api_set_music_address, set_nth in H.
  all: repeat match type of H with context [if ?c then _ else _] => destruct c; cbn [bind] in H end; try discriminate; injection H as <-; subst; cbn; try (split; assumption).
  all: try (split; [assumption|]; rewrite ?len_upd; try assumption; unfold len in *; now rewrite ?SN).
Qed.

Lemma tagged_defined v inf : defined (tagged api_set_author v inf) /\ defined (tagged api_set_title v inf) /\ defined (tagged api_set_date v inf).
Proof. destruct v as [t|]; cbn [tagged]; [|now cbn]. unfold api_set_author, api_set_title, api_set_date. destruct (check_valid_text t); now cbn. Qed.

Lemma conv_defined fuel self name module inf o xex song target output :
  named name sap_ext -> bytes module -> api_load fuel self (Some name) module = Ok inf -> named target sap_ext -> len output = 65000 ->
  defined (conv_module xex o target song inf module output).
Proof.
  intros Nn Bm L Nt LO. pose proof (sap_load_guarantees fuel self name module inf Nn Bm L) as G. destruct (sl_durations _ _ G) as (LD & _). pose proof (sl_songs _ _ G) as SN.
  assert (ED : forall j, edited inf j -> len (i_durations j) = 32 /\ 1 <= i_songs j <= 32) by (intros j E; apply edited_durations in E; destruct E; lia).
  unfold conv_module, conv_info, apply_tags.
  pose proof (proj1 (tagged_defined (o_author o) inf)) as D1. destruct (tagged api_set_author (o_author o) inf) as [a1| | |] eqn:T1; try exact D1. cbn [bind].
  pose proof (proj1 (proj2 (tagged_defined (o_name o) a1))) as D2. destruct (tagged api_set_title (o_name o) a1) as [a2| | |] eqn:T2; try exact D2. cbn [bind].
  pose proof (proj2 (proj2 (tagged_defined (o_date o) a2))) as D3. destruct (tagged api_set_date (o_date o) a2) as [a3| | |] eqn:T3; try exact D3. cbn [bind].
  pose proof (proj1 (tagged_date _ _ _ T3) inf (proj1 (tagged_title _ _ _ T2) inf (proj1 (tagged_author _ _ _ T1) inf (EdNone inf)))) as E3. clear T1 T2 T3 D1 D2 D3.
  match goal with |- context [bind (if 0 <=? o_ntsc o then ?x else ?y)] => assert (N : (if 0 <=? o_ntsc o then x else y) = Fail \/ exists a4, (if 0 <=? o_ntsc o then x else y) = Ok a4 /\ edited inf a4) end.
  { destruct (0 <=? o_ntsc o); [|right; eauto]. destruct (api_can_set_ntsc a3); [|now left]. right. destruct (api_set_ntsc a3 (negb (o_ntsc o =? 0))) as [a4| | |] eqn:Q.
    - exists a4. split; [reflexivity|]. exact (EdNtsc _ _ _ _ E3 Q).
    - exfalso. unfold api_set_ntsc in Q. destruct (_ <? _); discriminate.
    - exfalso. unfold api_set_ntsc in Q. destruct (ED a3 E3). replace (len (i_durations a3) <? i_songs a3) with false in Q by lia. discriminate.
    - exfalso. unfold api_set_ntsc in Q. destruct (_ <? _); discriminate. }
  destruct N as [-> | (a4 & -> & E4)]; [exact I|]. cbn [bind].
  set (a5 := if 0 <=? o_address o then snd (api_set_music_address a4 (o_address o)) else a4).
  assert (E5 : edited inf a5) by (unfold a5; destruct (0 <=? o_address o); [|exact E4]; destruct (api_set_music_address a4 (o_address o)) as [b q] eqn:Q; exact (EdMusic _ _ _ _ _ E4 Q)).
  clearbody a5. unfold conv_song. set (a6 := if xex then snd (api_set_default_song a5 song) else a5).
  assert (E6 : edited inf a6) by (unfold a6; destruct xex; [|exact E5]; destruct (api_set_default_song a5 song) as [b q] eqn:Q; exact (EdDefaultSong _ _ _ _ _ E5 Q)).
  clearbody a6. cbn zeta.
  match goal with |- context [bind (if 0 <=? o_duration o then ?x else ?y)] => assert (N : exists a7, (if 0 <=? o_duration o then x else y) = Ok a7 /\ edited inf a7) end.
  { destruct (0 <=? o_duration o); [|eauto]. destruct (api_set_duration a6 song (o_duration o)) as [[b q]| | |] eqn:Q; [exists q; split; [reflexivity|exact (EdDuration _ _ _ _ _ _ E6 Q)]|..]; exfalso; destruct (ED a6 E6); unfold api_set_duration, set_nth in Q.
    all: destruct ((song <? 0) || (i_songs a6 <=? song)) eqn:C; [discriminate|]; replace ((song <? 0) || (len (i_durations a6) <=? song)) with false in Q by lia; discriminate. }
  destruct N as (a7 & -> & E7). cbn [bind].
  destruct (save_sap fuel self name module inf a7 target (o_tag o) (api_set_output output 0 65000) Nn Bm L E7 Nt) as (hdr & _ & _ & _ & FA & SU); [split; cbn; lia|].
  destruct (Z_le_gt_dec (w_off (api_set_output output 0 65000) + len hdr + (len module - i_headerLen a7)) (w_end (api_set_output output 0 65000))) as [CC|CC].
  - destruct (SU CC) as (w2 & -> & _). exact I.
  - destruct FA as (w2 & ->); [lia|]. exact I.
Qed.
