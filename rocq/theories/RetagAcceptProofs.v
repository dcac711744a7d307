(* which conversions asapconv accepts *)
From Coq Require Import String.
From Verif Require Import Base BaseFacts InfoModel InfoSpec InfoProofs NativeModel WriterModel WriteModel SapSpec SapWitness SapProofs SapWriteProofs SapLoadProofs OptionModel RetagModel RetagSpec RetagProofs RetagStandardSpec.

Lemma accept_author v inf : (forall t, v = Some t -> meta_text t) -> exists inf', tagged api_set_author v inf = Ok inf'.
Proof. intros H. destruct v as [t|]; [|now eexists]. cbn [tagged]. destruct (set_author_spec inf t) as [(_ & ->) | (B & _)]; [now eexists|destruct (B (H t eq_refl))]. Qed.
Lemma accept_title v inf : (forall t, v = Some t -> meta_text t) -> exists inf', tagged api_set_title v inf = Ok inf'.
Proof. intros H. destruct v as [t|]; [|now eexists]. cbn [tagged]. destruct (set_title_spec inf t) as [(_ & ->) | (B & _)]; [now eexists|destruct (B (H t eq_refl))]. Qed.
Lemma accept_date v inf : (forall t, v = Some t -> meta_text t) -> exists inf', tagged api_set_date v inf = Ok inf'.
Proof. intros H. destruct v as [t|]; [|now eexists]. cbn [tagged]. destruct (set_date_spec inf t) as [(_ & ->) | (B & _)]; [now eexists|destruct (B (H t eq_refl))]. Qed.
Lemma reject_author v inf inf' : tagged api_set_author v inf = Ok inf' -> forall t, v = Some t -> meta_text t.
Proof. intros H t ->. cbn [tagged] in H. destruct (set_author_spec inf t) as [(M & _) | (_ & B)]; [exact M|]. rewrite B in H. discriminate. Qed.
Lemma reject_title v inf inf' : tagged api_set_title v inf = Ok inf' -> forall t, v = Some t -> meta_text t.
Proof. intros H t ->. cbn [tagged] in H. destruct (set_title_spec inf t) as [(M & _) | (_ & B)]; [exact M|]. rewrite B in H. discriminate. Qed.
Lemma reject_date v inf inf' : tagged api_set_date v inf = Ok inf' -> forall t, v = Some t -> meta_text t.
Proof. intros H t ->. cbn [tagged] in H. destruct (set_date_spec inf t) as [(M & _) | (_ & B)]; [exact M|]. rewrite B in H. discriminate. Qed.

Lemma can_set inf : api_can_set_ntsc inf = true <-> i_type inf = SAP_B /\ i_fastplay inf = frame_lines (i_ntsc inf).
Proof.
  unfold api_can_set_ntsc, frame_lines. rewrite andb_true_iff, Z.eqb_eq. split; intros (A & B); (split; [|exact B]); [now destruct (i_type inf)|now rewrite A].
Qed.

Lemma accepted fuel self name module inf o xex song target output :
  named name sap_ext -> bytes module -> api_load fuel self (Some name) module = Ok inf -> named target sap_ext -> len output = 65000 ->
  (~ acceptable o inf -> conv_module xex o target song inf module output = Fail) /\
  (acceptable o inf -> exists hdr, Forall (fun c => 0 <= c < 128) hdr /\ (exists r, hdr = [83; 65; 80; 13; 10] ++ r) /\
     (len hdr + (len module - i_headerLen inf) <= 65000 -> conv_module xex o target song inf module output = Ok (hdr ++ slice module (i_headerLen inf) (len module))) /\
     (65000 < len hdr + (len module - i_headerLen inf) -> conv_module xex o target song inf module output = Fail)).
Proof.
  intros Nn Bm L Nt LO. split.
  - intros NA. pose proof (conv_defined fuel self name module inf o xex song target output Nn Bm L Nt LO) as D.
    destruct (conv_module xex o target song inf module output) as [file| | |] eqn:H; [|reflexivity|destruct D|destruct D]. exfalso. apply NA. clear D NA.
    unfold conv_module, conv_info, apply_tags in H.
    destruct (tagged api_set_author (o_author o) inf) as [a1| | |] eqn:T1; try discriminate. cbn [bind] in H.
    destruct (tagged api_set_title (o_name o) a1) as [a2| | |] eqn:T2; try discriminate. cbn [bind] in H.
    destruct (tagged api_set_date (o_date o) a2) as [a3| | |] eqn:T3; try discriminate. cbn [bind] in H.
    split; [eapply reject_author; eassumption|]. split; [eapply reject_title; eassumption|]. split; [eapply reject_date; eassumption|].
    intros NT. replace (0 <=? o_ntsc o) with true in H by lia. destruct (api_can_set_ntsc a3) eqn:C; [|discriminate]. apply can_set in C.
    apply tagged_author in T1. apply tagged_title in T2. apply tagged_date in T3. destruct T1 as (_ & E1), T2 as (_ & E2), T3 as (_ & E3). subst a3 a2 a1. exact C.
  - intros (A1 & A2 & A3 & A4).
    pose proof (sap_load_guarantees fuel self name module inf Nn Bm L) as G. destruct (sl_durations _ _ G) as (LD & _). pose proof (sl_songs _ _ G) as SN.
    assert (ED : forall j, edited inf j -> len (i_durations j) = 32 /\ 1 <= i_songs j <= 32) by (intros j E; apply edited_durations in E; destruct E; lia).
    unfold conv_module, conv_info, apply_tags.
    destruct (accept_author (o_author o) inf A1) as (a1 & T1). rewrite T1. cbn [bind]. destruct (accept_title (o_name o) a1 A2) as (a2 & T2). rewrite T2. cbn [bind].
    destruct (accept_date (o_date o) a2 A3) as (a3 & T3). rewrite T3. cbn [bind].
    apply tagged_author in T1. apply tagged_title in T2. apply tagged_date in T3. destruct T1 as (X1 & E1), T2 as (X2 & E2), T3 as (X3 & E3).
    pose proof (X3 inf (X2 inf (X1 inf (EdNone inf)))) as Y3. clear X1 X2 X3.
    assert (CAN : 0 <= o_ntsc o -> api_can_set_ntsc a3 = true) by (intros NT; apply can_set; subst a3 a2 a1; exact (A4 NT)). clear E1 E2 E3 A1 A2 A3 A4.
    match goal with |- context [bind (if 0 <=? o_ntsc o then ?x else ?y)] => assert (N : exists a4, (if 0 <=? o_ntsc o then x else y) = Ok a4 /\ edited inf a4) end.
    { destruct (Z.leb_spec 0 (o_ntsc o)) as [NT|NT]; [|eauto]. rewrite (CAN NT). destruct (ED a3 Y3). eexists. assert (Q : api_set_ntsc a3 (negb (o_ntsc o =? 0)) = Ok (set_durations (set_ntsc_durations (negb (o_ntsc o =? 0)) (Z.to_nat (i_songs a3)) (i_durations a3)) (set_fastplay (if negb (o_ntsc o =? 0) then 262 else 312) (set_ntsc (negb (o_ntsc o =? 0)) a3)))).
      { unfold api_set_ntsc. now replace (len (i_durations a3) <? i_songs a3) with false by lia. }
      split; [exact Q|]. exact (EdNtsc _ _ _ _ Y3 Q). }
    destruct N as (a4 & -> & E4). cbn [bind].
    set (a5 := if 0 <=? o_address o then snd (api_set_music_address a4 (o_address o)) else a4).
    assert (E5 : edited inf a5) by (unfold a5; destruct (0 <=? o_address o); [|exact E4]; destruct (api_set_music_address a4 (o_address o)) as [b q] eqn:Q; exact (EdMusic _ _ _ _ _ E4 Q)).
    clearbody a5. unfold conv_song. set (a6 := if xex then snd (api_set_default_song a5 song) else a5).
    assert (E6 : edited inf a6) by (unfold a6; destruct xex; [|exact E5]; destruct (api_set_default_song a5 song) as [b q] eqn:Q; exact (EdDefaultSong _ _ _ _ _ E5 Q)).
    clearbody a6. cbn zeta.
    match goal with |- context [bind (if 0 <=? o_duration o then ?x else ?y)] => assert (N : exists a7, (if 0 <=? o_duration o then x else y) = Ok a7 /\ edited inf a7) end.
    { destruct (0 <=? o_duration o); [|eauto]. destruct (api_set_duration a6 song (o_duration o)) as [[b q]| | |] eqn:Q; [exists q; split; [reflexivity|exact (EdDuration _ _ _ _ _ _ E6 Q)]|..]; exfalso; destruct (ED a6 E6); unfold api_set_duration, set_nth in Q.
      all: destruct ((song <? 0) || (i_songs a6 <=? song)) eqn:C; [discriminate|]; replace ((song <? 0) || (len (i_durations a6) <=? song)) with false in Q by lia; discriminate. }
    destruct N as (a7 & -> & E7). cbn [bind].
    destruct (save_sap fuel self name module inf a7 target (o_tag o) (api_set_output output 0 65000) Nn Bm L E7 Nt) as (hdr & H1 & H2 & HL & FA & SU); [split; cbn; lia|].
    exists hdr. split; [exact H1|]. split; [exact H2|]. rewrite HL in FA, SU. cbn [w_off w_end api_set_output] in FA, SU. split; intros C.
    + destruct SU as (w2 & -> & WR & _); [lia|]. cbn [bind]. f_equal. rewrite <- WR. unfold written, slice. cbn [w_off api_set_output]. now rewrite Z.sub_0_r.
    + destruct FA as (w2 & ->); [lia|]. reflexivity.
Qed.
