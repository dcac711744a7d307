(* Native modules whose loading never ends. *)
From Coq Require Import String.
From Verif Require Import Base BaseFacts InfoModel InfoSpec Loop NativeModel NativeSpec SapSpec SapWitness NativeWitness InfoProofs.

Lemma cmc_endless_diverges fuel : api_load fuel blank_info (Some (str "x.cmc")) cmc_endless = OutOfFuel.
Proof.
  assert (E : api_load fuel blank_info (Some (str "x.cmc")) cmc_endless
     = parse_cmc fuel CMC (load_defaults (set_filename (str "x") blank_info)) cmc_endless) by reflexivity.
  rewrite E. clear E. unfold parse_cmc.
  assert (E : len cmc_endless <? 774 = false) by (vm_compute; reflexivity). rewrite E. clear E. cbv iota.
  set (inf := set_type CMC (load_defaults (set_filename (str "x") blank_info))).
  assert (E : parse_module inf cmc_endless = Ok (set_music 8192 inf)) by (vm_compute; reflexivity).
  rewrite E. cbn [bind]. clear E.
  assert (E : cmc_last_pos cmc_endless (i_channels (set_music 8192 inf)) 84 = Ok 1) by (vm_compute; reflexivity).
  rewrite E. cbn [bind]. clear E. unfold parse_cmc_song at 1.
  assert (E : get cmc_endless 25 = Ok 6) by (vm_compute; reflexivity). rewrite E. cbn [bind]. clear E.
  set (i0 := set_songs 0 (set_music 8192 inf)).
  set (z := repeat 0 83).
  pose (st := fun pos rs re rt a b => mkCmc i0 pos 6 0 rs re rt (a :: b :: z)).
  assert (E : mkCmc i0 0 6 0 0 0 0 (repeat 0 85) = st 0 0 0 0 0 0) by reflexivity. rewrite E. clear E.
  rewrite (loop_diverges (cmc_step cmc_endless)
    (fun s => s = st 0 0 0 0 0 0 \/ s = st 1 1 1 1 1 0 \/ s = st 0 1 1 0 0 1 \/ s = st 1 1 1 1 1 1)); [reflexivity| |now left].
  intros s [-> |[-> |[-> | ->]]]; eexists; (split; [vm_compute; reflexivity|]).
  - right. left. reflexivity.
  - right. right. left. reflexivity.
  - right. right. right. reflexivity.
  - right. right. left. reflexivity.
Qed.

Lemma loop_stuck {S R} fuel (step : S -> outcome (S + R)) s : step s = OutOfFuel -> loop fuel step s = OutOfFuel.
Proof. intros E. destruct fuel; cbn [loop]; rewrite E; reflexivity. Qed.

Lemma bind_ok {A C} (m : outcome A) a (f : A -> outcome C) r : m = Ok a -> f a = r -> bind m f = r.
Proof. intros -> H. exact H. Qed.
Lemma bind_fuel {A C} (m : outcome A) (f : A -> outcome C) : m = OutOfFuel -> bind m f = OutOfFuel.
Proof. intros ->. reflexivity. Qed.
Lemma if_eq {A} (c b : bool) (x y : A) r : c = b -> (if b then x else y) = r -> (if c then x else y) = r.
Proof. intros ->. auto. Qed.

(* one bind, one test *)
Ltac ev1 := eapply bind_ok; [vm_compute; reflexivity|]; cbv beta zeta.
Ltac ev2 := eapply if_eq; [vm_compute; reflexivity|]; cbv iota.

Definition r0 (rows b0 : Z) : rmt := mkRmt 1 0 rows [42; -1; -1; -1; -1; -1; -1; -1] [42; -1; -1; -1; -1; -1; -1; -1] [b0; 256; 256; 256; -1; -1; -1; -1]
        (repeat 0 8) (repeat 0 8) (repeat 0 8) (repeat 0 8).

Lemma note_diverges fuel s : s = (r0 0 (-1), 42) -> loop fuel (rmt_note_step rmt_endless 0) s = OutOfFuel.
Proof.
  intros ->. apply (loop_diverges (rmt_note_step rmt_endless 0) (eq (r0 0 (-1), 42))); [|reflexivity].
  intros s <-. eexists. split; [vm_compute; reflexivity|reflexivity].
Qed.

Lemma row_diverges fuel s : s = r0 1 0 -> rmt_row_step fuel rmt_endless 4 s = OutOfFuel.
Proof.
  intros ->. unfold rmt_row_step. cbv zeta. ev2. apply bind_fuel. cbn [rmt_channels]. ev1. ev1. ev2. ev1. apply bind_fuel. apply note_diverges. vm_compute. reflexivity.
Qed.

Lemma song_step_diverges fuel i' a b c d l : a = 48 -> b = 40 -> c = 41 -> d = 16378 -> l = repeat 0 256 ->
  rmt_song_step fuel rmt_endless 1 2 a b c d (mkRmtSong i' l l 0
     (mkRmt 1 0 0 (repeat (-1) 8) (repeat (-1) 8) (repeat (-1) 8) (repeat 0 8) (repeat 0 8) (repeat 0 8) (repeat 0 8))) = OutOfFuel.
Proof.
  intros -> -> -> -> ->. unfold rmt_song_step. cbn [rs_pos rs_seen rs_gseen rs_inf rs_r]. ev2. ev1. ev2. ev1. ev1. ev1. ev2. ev1.
  ev1. apply bind_fuel. apply loop_stuck. apply row_diverges. vm_compute. reflexivity.
Qed.

Lemma song_diverges fuel inf n l : n = 1 -> l = repeat 0 256 -> parse_rmt_song fuel rmt_endless inf l n 2 0 = OutOfFuel.
Proof.
  intros -> ->. unfold parse_rmt_song. ev1. ev1. ev1. ev1. ev1. apply bind_fuel. apply loop_stuck.
  apply song_step_diverges; reflexivity.
Qed.

Lemma songs_by_pos_stuck parse inf l n m inf' : n = S m -> i_songs inf <? 32 = true -> get l 0 = Ok 0 -> set_song_pos 0 inf = Ok inf' -> parse inf' l 0 = OutOfFuel ->
  songs_by_pos parse inf l n 0 = OutOfFuel.
Proof. intros -> H1 H2 H3 H4. cbn [songs_by_pos]. rewrite H1, H2. cbn [bind]. rewrite Z.eqb_refl, H3. cbn [bind]. rewrite H4. reflexivity. Qed.

Lemma rmt_endless_diverges fuel : api_load fuel blank_info (Some (str "x.rmt")) rmt_endless = OutOfFuel.
Proof.
  unfold api_load. ev1. unfold load_packed. do 10 ev2. unfold parse_rmt. ev1. ev2. ev1. ev1. ev1. ev2. ev1. ev1. ev1. ev1. ev2.
  apply bind_fuel. eapply songs_by_pos_stuck; [vm_compute; reflexivity|vm_compute; reflexivity|vm_compute; reflexivity|vm_compute; reflexivity|].
  apply song_diverges; [vm_compute|]; reflexivity.
Qed.

(* ---- the witnesses of the other refutations and examples ---- *)
Lemma bytesb_spec l : forallb (fun b => (0 <=? b) && (b <? 256)) l = true -> bytes l.
Proof. intros H. apply Forall_forall. intros x Hx. rewrite forallb_forall in H. specialize (H x Hx). cbn beta in H. unfold byte. lia. Qed.


Lemma cms_reads_outside : exists fuel self module, bytes module /\ len (i_songPos self) = 32
    /\ api_load fuel self (Some (str "x.cms"%string)) module = UB UbRead.
Proof. exists 1%nat, blank_info, cms_short. split; [apply bytesb_spec; vm_compute; reflexivity|]. split; vm_compute; reflexivity. Qed.

Lemma mpt_reads_outside : exists fuel self module, bytes module /\ len (i_songPos self) = 32
    /\ api_load fuel self (Some (str "x.mpt"%string)) module = UB UbRead.
Proof. exists 1%nat, blank_info, mpt_short. split; [apply bytesb_spec; vm_compute; reflexivity|]. split; vm_compute; reflexivity. Qed.

Lemma tmc_reads_outside : exists fuel self module, bytes module /\ len (i_songPos self) = 32
    /\ api_load fuel self (Some (str "x.tmc"%string)) module = UB UbRead.
Proof. exists 1%nat, blank_info, tmc_bad. split; [apply bytesb_spec; vm_compute; reflexivity|]. split; vm_compute; reflexivity. Qed.

Lemma tm2_reads_outside : exists fuel self module, bytes module /\ len (i_songPos self) = 32
    /\ api_load fuel self (Some (str "x.tm2"%string)) module = UB UbRead.
Proof. exists 1%nat, blank_info, tm2_bad. split; [apply bytesb_spec; vm_compute; reflexivity|]. split; vm_compute; reflexivity. Qed.

Lemma rmt_reads_outside : exists fuel self module, bytes module /\ len (i_songPos self) = 32
    /\ api_load fuel self (Some (str "x.rmt"%string)) module = UB UbRead.
Proof. exists 1%nat, blank_info, rmt_bad. split; [apply bytesb_spec; vm_compute; reflexivity|]. split; vm_compute; reflexivity. Qed.

Lemma cmc_never_ends : exists self module, bytes module /\ len (i_songPos self) = 32
    /\ forall fuel, api_load fuel self (Some (str "x.cmc"%string)) module = OutOfFuel.
Proof. exists blank_info, cmc_endless. split; [apply bytesb_spec; vm_compute; reflexivity|]. split; [vm_compute; reflexivity|]. exact cmc_endless_diverges. Qed.

Lemma rmt_never_ends : exists self module, bytes module /\ len (i_songPos self) = 32
    /\ forall fuel, api_load fuel self (Some (str "x.rmt"%string)) module = OutOfFuel.
Proof. exists blank_info, rmt_endless. split; [apply bytesb_spec; vm_compute; reflexivity|]. split; [vm_compute; reflexivity|]. exact rmt_endless_diverges. Qed.

Lemma fc_loads_empty : exists fuel self module inf, bytes module /\ len (i_songPos self) = 32
    /\ api_load fuel self (Some (str "x.fc"%string)) module = Ok inf /\ i_songs inf = 0.
Proof. exists 1000%nat, blank_info, fc_empty. eexists. split; [apply bytesb_spec; vm_compute; reflexivity|]. split; [vm_compute; reflexivity|]. split; vm_compute; reflexivity. Qed.

Lemma cmc_overflows : exists fuel self module, bytes module /\ len (i_songPos self) = 32
    /\ api_load fuel self (Some (str "x.cmc"%string)) module = UB UbOverflow.
Proof. exists 5000%nat, blank_info, cmc_long. split; [apply bytesb_spec; vm_compute; reflexivity|]. split; vm_compute; reflexivity. Qed.

Lemma mpt_overflows : exists fuel self module, bytes module /\ len (i_songPos self) = 32
    /\ api_load fuel self (Some (str "x.mpt"%string)) module = UB UbOverflow.
Proof. exists 300%nat, blank_info, mpt_long. split; [apply bytesb_spec; vm_compute; reflexivity|]. split; vm_compute; reflexivity. Qed.

Lemma cmc_file_named : named (str "x.CMC"%string) [99; 109; 99].
Proof. exists [120], [67; 77; 67]. repeat split. discriminate. Qed.

Lemma cmc_file_bytes : bytes cmc_file.
Proof. apply bytesb_spec; vm_compute; reflexivity. Qed.

Lemma cmc_file_loads :
  In [99; 109; 99] cmc_exts /\ named (str "x.CMC"%string) [99; 109; 99] /\ bytes cmc_file /\ len (i_songPos blank_info) = 32
  /\ exists inf, api_load 85 blank_info (Some (str "x.CMC"%string)) cmc_file = Ok inf /\ i_songs inf = 2.
Proof.
  split; [now left|]. split; [exact cmc_file_named|]. split; [exact cmc_file_bytes|]. split; [reflexivity|].
  eexists. split; vm_compute; reflexivity.
Qed.

Lemma cmc_file_calm : no_endless_commands [99; 109; 99] cmc_file.
Proof.
  split; [discriminate|]. split; [|discriminate]. intros _ p [Hp E].
  assert (H : forallb (fun p => negb (Z.lor (at_ cmc_file (518 + p)) 15 =? 223)) (zrange 85) = true) by (vm_compute; reflexivity).
  pose proof (forallb_zrange 85 _ H p ltac:(lia)) as K. cbn beta in K. rewrite E in K. discriminate.
Qed.

Lemma cmc_file_ends : In [99; 109; 99] supported_exts /\ named (str "x.CMC"%string) [99; 109; 99] /\ bytes cmc_file
  /\ no_endless_commands [99; 109; 99] cmc_file.
Proof. split; [right; now left|]. split; [exact cmc_file_named|]. split; [exact cmc_file_bytes|exact cmc_file_calm]. Qed.

Lemma cmc_file_result : exists inf, api_load 85 blank_info (Some (str "x.CMC"%string)) cmc_file = Ok inf
    /\ i_songs inf = 2 /\ i_type inf = CMC /\ firstn 3 (i_durations inf) = [7701; 15402; -1].
Proof. eexists. split; [vm_compute; reflexivity|]. repeat split; vm_compute; reflexivity. Qed.

Lemma cmc_file_defined : (In [99; 109; 99] cmc_exts \/ ([99; 109; 99] = cms_ext /\ 1028 <= len cmc_file) \/ [99; 109; 99] = dlt_ext)
  /\ no_endless_commands [99; 109; 99] cmc_file /\ defined (api_load 85 blank_info (Some (str "x.CMC"%string)) cmc_file).
Proof. split; [left; now left|]. split; [exact cmc_file_calm|]. vm_compute. exact I. Qed.
