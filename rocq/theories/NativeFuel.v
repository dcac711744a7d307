(* The fuel of the model does not matter: with more fuel the result is the same unless the fuel ran out. *)
From Verif Require Import Base BaseFacts InfoModel Loop NativeModel.

Section Fuel.
Variables n m : nat.
Hypothesis Hnm : (n <= m)%nat.

Ltac fle_step :=
  match goal with
  | |- fle ?a ?a => apply fle_refl
  | |- fle (bind _ _) (bind _ _) => apply fle_bind; [|intro]
  | |- fle (loop _ _ _) (loop _ _ _) => apply loop_fle; [intro|exact Hnm]
  | |- fle (if ?c then _ else _) (if ?c then _ else _) => destruct c
  | |- fle (match ?c with _ => _ end) (match ?c with _ => _ end) => destruct c
  | H : forall _, _ |- _ => solve [apply H]
  | |- fle _ _ => progress cbv zeta
  end.
Ltac fle_auto := repeat fle_step.

Lemma cmc_songs_fle module k : forall inf pos, fle (cmc_songs n module inf k pos) (cmc_songs m module inf k pos).
Proof. induction k as [|k IH]; intros; cbn [cmc_songs]; unfold parse_cmc_song; fle_auto. Qed.

Lemma parse_cmc_fle type inf module : fle (parse_cmc n type inf module) (parse_cmc m type inf module).
Proof. pose proof cmc_songs_fle. unfold parse_cmc, parse_cmc_song. fle_auto. Qed.

Lemma dlt_songs_fle module k : forall inf seen pos, fle (dlt_songs n module inf seen k pos) (dlt_songs m module inf seen k pos).
Proof. induction k as [|k IH]; intros; cbn [dlt_songs]; unfold parse_dlt_song; fle_auto. Qed.

Lemma parse_dlt_fle inf module : fle (parse_dlt n inf module) (parse_dlt m inf module).
Proof. pose proof dlt_songs_fle. unfold parse_dlt. fle_auto. Qed.

Lemma songs_by_pos_fle f g : (forall inf l pos, fle (f inf l pos) (g inf l pos)) ->
  forall k inf l pos, fle (songs_by_pos f inf l k pos) (songs_by_pos g inf l k pos).
Proof. intros H. induction k as [|k IH]; intros; cbn [songs_by_pos]; fle_auto. Qed.

Lemma mpt_channels_fle module k : forall s, fle (mpt_channels n module k s) (mpt_channels m module k s).
Proof. induction k as [|k IH]; intros; cbn [mpt_channels]; fle_auto. Qed.

Lemma parse_mpt_song_fle module inf l songLen pos : fle (parse_mpt_song n module inf l songLen pos) (parse_mpt_song m module inf l songLen pos).
Proof. pose proof mpt_channels_fle. unfold parse_mpt_song, mpt_song_step, mpt_row_step. fle_auto. Qed.

Lemma parse_mpt_fle inf module : fle (parse_mpt n inf module) (parse_mpt m inf module).
Proof.
  pose proof parse_mpt_song_fle. unfold parse_mpt. fle_auto. apply songs_by_pos_fle. intros. fle_auto.
Qed.

Lemma rmt_channels_fle module k : forall ch r, fle (rmt_channels n module k ch r) (rmt_channels m module k ch r).
Proof. induction k as [|k IH]; intros; cbn [rmt_channels]; fle_auto. Qed.

Lemma rmt_sounding_fle module r k : forall ch lg, fle (rmt_sounding n module r k ch lg) (rmt_sounding m module r k ch lg).
Proof. induction k as [|k IH]; intros; cbn [rmt_sounding]; unfold rmt_instrument_frames; fle_auto. Qed.

Lemma parse_rmt_song_fle module inf l songLen ps pos :
  fle (parse_rmt_song n module inf l songLen ps pos) (parse_rmt_song m module inf l songLen ps pos).
Proof. pose proof rmt_channels_fle. pose proof rmt_sounding_fle. unfold parse_rmt_song, rmt_song_step, rmt_row_step. fle_auto. Qed.

Lemma parse_rmt_fle inf module : fle (parse_rmt n inf module) (parse_rmt m inf module).
Proof.
  pose proof parse_rmt_song_fle. unfold parse_rmt. fle_auto. apply songs_by_pos_fle. intros. fle_auto.
Qed.

Lemma tmc_row_fle f g s : (forall s, fle (f s) (g s)) -> fle (tmc_row_step f s) (tmc_row_step g s).
Proof.
  intros H. unfold tmc_row_step.
  assert (K : forall k t, fle (tmc_channels f k t) (tmc_channels g k t))
    by (induction k as [|k IH]; intros; cbn [tmc_channels]; fle_auto).
  fle_auto.
Qed.

Lemma parse_tmc_song_fle module inf pos : fle (parse_tmc_song n module inf pos) (parse_tmc_song m module inf pos).
Proof. unfold parse_tmc_song, tmc_song_step. fle_auto. apply tmc_row_fle. intros. fle_auto. Qed.

Lemma parse_tmc_fle inf module : fle (parse_tmc n inf module) (parse_tmc m inf module).
Proof. pose proof parse_tmc_song_fle. unfold parse_tmc, tmc_songs_step. fle_auto. Qed.

Lemma parse_tm2_song_fle module inf pos : fle (parse_tm2_song n module inf pos) (parse_tm2_song m module inf pos).
Proof. unfold parse_tm2_song, tm2_song_step. fle_auto. apply tmc_row_fle. intros. fle_auto. Qed.

Lemma parse_tm2_fle inf module : fle (parse_tm2 n inf module) (parse_tm2 m inf module).
Proof. pose proof parse_tm2_song_fle. unfold parse_tm2, tm2_songs_step. fle_auto. Qed.

Lemma fc_patterns_fle module k : forall o, fle (fc_patterns n module k o) (fc_patterns m module k o).
Proof. induction k as [|k IH]; intros; cbn [fc_patterns]; unfold after_ff; fle_auto. Qed.

Lemma fc_voices_fle module po k : forall c f, fle (fc_voices n module po k c f) (fc_voices m module po k c f).
Proof. induction k as [|k IH]; intros; cbn [fc_voices]; fle_auto. Qed.

Lemma parse_fc_fle inf module : fle (parse_fc n inf module) (parse_fc m inf module).
Proof. pose proof fc_patterns_fle. pose proof fc_voices_fle. unfold parse_fc, fc_song_step, fc_play_step. fle_auto. Qed.

Lemma load_packed_fle ext inf module : fle (load_packed n ext inf module) (load_packed m ext inf module).
Proof.
  unfold load_packed.
  repeat match goal with |- fle (if ?c then _ else _) _ => destruct c end;
  match goal with
  | |- fle ?a ?a => apply fle_refl
  | |- fle (parse_cmc _ _ _ _) _ => apply parse_cmc_fle
  | |- fle (parse_dlt _ _ _) _ => apply parse_dlt_fle
  | |- fle (parse_mpt _ _ _) _ => apply parse_mpt_fle
  | |- fle (parse_rmt _ _ _) _ => apply parse_rmt_fle
  | |- fle (parse_tmc _ _ _) _ => apply parse_tmc_fle
  | |- fle (parse_tm2 _ _ _) _ => apply parse_tm2_fle
  | |- fle (parse_fc _ _ _) _ => apply parse_fc_fle
  end.
Qed.

Lemma api_load_fle self name module : fle (api_load n self name module) (api_load m self name module).
Proof. pose proof load_packed_fle. unfold api_load. fle_auto. Qed.
End Fuel.
