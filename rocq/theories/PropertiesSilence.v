(* C58: detection of silence.  Nothing but statements here. *)
From Verif Require Import Base BaseFacts Loop MemModel InfoModel NativeModel PokeyModel MachineModel PlayModel CpuWitness PlayWitness SoundSpec SoundWitness SilenceSpec SilenceProofs SilenceWitness.

(* the time is counted in PAL cycles, from 0; at most 1210 seconds can be asked for *)
Theorem C58_request :
  forall seconds s,
  (-1210 <= seconds <= 1210 -> exists t, api_detect_silence seconds s = Ok t /\ m_silenceCycles t = seconds * pal_second /\ m_silenceCyclesCounter t = m_silenceCycles t /\ same_machine s t) /\
  (~ -1210 <= seconds <= 1210 -> api_detect_silence seconds s = UB UbOverflow).
Proof.
  intros seconds s. rewrite detect_silence_int. split; intros H.
  - replace ((-1210 <=? seconds) && (seconds <=? 1210)) with true by lia. eexists. split; [reflexivity|]. split; [reflexivity|]. split; reflexivity.
  - replace ((-1210 <=? seconds) && (seconds <=? 1210)) with false by lia. reflexivity.
Qed.
Print Assumptions C58_request.

(* playing in any portions: the counter tells for how long it has been silent now, and no frame is emulated once it
   has been silent for long enough *)
Theorem C58_counts :
  forall s requests t, 0 < m_silenceCycles s -> m_silenceCyclesCounter s = m_silenceCycles s -> Forall generating requests -> serve_all requests s = Ok t ->
  exists l, watched s l t /\ m_silenceCycles t = m_silenceCycles s /\ m_silenceCyclesCounter t = m_silenceCycles s - cycles_per_frame s * run l /\
    (forall p q, l = p ++ q -> q <> [] -> ~ over s p).
Proof.
  intros s requests t H C F E. destruct (serve_all_watching s [] requests s t H F (watching_start s H C) E) as (l & W & _ & L & N & P). exists l. auto.
Qed.
Print Assumptions C58_counts.
(* in seconds: playback has ended exactly when the last frames were quiet for the time asked for *)
Theorem C58_seconds :
  forall seconds s0 s requests t, 0 < seconds -> api_detect_silence seconds s0 = Ok s -> Forall generating requests -> serve_all requests s = Ok t ->
  exists l, watched s l t /\ (m_silenceCyclesCounter t <= 0 <-> frames_needed seconds s <= run l) /\ (forall p q, l = p ++ q -> q <> [] -> run p < frames_needed seconds s).
Proof.
  intros seconds s0 s requests t H D F E. rewrite detect_silence_int in D. destruct (_ && _); [|discriminate D]. injection D as <-. set (s := set_m_silenceCyclesCounter _ _) in *.
  assert (L : m_silenceCycles s = seconds * pal_second) by reflexivity.
  assert (H1 : 0 < m_silenceCycles s) by (rewrite L; unfold pal_second; lia). assert (C : m_silenceCyclesCounter s = m_silenceCycles s) by reflexivity.
  destruct (serve_all_watching s [] requests s t H1 F (watching_start s H1 C) E) as (l & W & _ & _ & N & P). exists l. split; [exact W|]. split.
  - rewrite <- (needed_enough seconds s l H L), N. unfold over. lia.
  - intros p q X Y. specialize (P p q X Y). rewrite (needed_enough seconds s p H L) in P. lia.
Qed.
Print Assumptions C58_seconds.
Example C58_counts_example : exists s t b, start 4000 count_sap = Ok (true, s) /\ api_detect_silence 1 s = Ok t /\ cycles_per_frame t = 35568 /\ frames_needed 1 t = 50 /\
  result silence_left (api_generate b 100 U8 t) = Some (100, 1773447 - 2 * 35568).
Proof. exact silent_run. Qed.

(* then no more samples are made, and nothing changes *)
Theorem C58_ended :
  forall buffer n f s, 0 < m_silenceCycles s -> m_silenceCyclesCounter s <= 0 -> api_generate buffer n f s = Ok (0, buffer, s).
Proof. exact generate_over. Qed.
Print Assumptions C58_ended.
Example C58_ended_example :
  result silence_left (calls (start 4000 count_sap) (fun s => api_generate (repeat 7 200) 200 U8 (limited s))) = Some (80, 60000 - 2 * 35568) /\
  result silence_left (calls (start 4000 count_sap) (fun s => t <- serve_all [Generate (repeat 7 10) 10 U8; Generate (repeat 7 160) 160 S16LE] (limited s) ;; api_generate (repeat 7 10) 10 U8 t)) = Some (0, 60000 - 2 * 35568).
Proof. exact ended_run. Qed.

(* when playback ends does not depend on the portions, the format of the samples or the sample rate set meanwhile *)
Theorem C58_portions :
  forall s r1 r2 t1 t2, 0 < m_silenceCycles s -> m_silenceCyclesCounter s = m_silenceCycles s -> Forall generating r1 -> Forall generating r2 ->
  serve_all r1 s = Ok t1 -> serve_all r2 s = Ok t2 -> m_silenceCyclesCounter t1 <= 0 -> m_silenceCyclesCounter t2 <= 0 ->
  same_machine t1 t2 /\ exists l, watched s l t1 /\ watched s l t2.
Proof.
  intros s r1 r2 t1 t2 H C F1 F2 E1 E2 N1 N2. destruct (serve_all_watching s [] r1 s t1 H F1 (watching_start s H C) E1) as (l1 & W1). destruct (serve_all_watching s [] r2 s t2 H F2 (watching_start s H C) E2) as (l2 & W2).
  assert (O1 : over s l1) by (destruct W1 as (_ & _ & _ & X & _); unfold over; lia). assert (O2 : over s l2) by (destruct W2 as (_ & _ & _ & X & _); unfold over; lia).
  destruct (both_ended _ _ _ _ _ W1 W2 O1 O2) as [<- M]. split; [exact M|]. exists l1. split; [apply W1|apply W2].
Qed.
Print Assumptions C58_portions.

(* starting a song and seeking back start counting again; seeking forward does not count *)
Theorem C58_restart :
  forall song duration s b t, api_play_song song duration s = Ok (b, t) -> 0 <= song < i_songs (m_info s) ->
  m_silenceCycles t = m_silenceCycles s /\ m_silenceCyclesCounter t = m_silenceCycles s.
Proof. exact play_song_counter. Qed.
Print Assumptions C58_restart.
Theorem C58_seek :
  forall block s t, api_seek_sample block s = Ok (true, t) ->
  m_silenceCycles t = m_silenceCycles s /\ m_silenceCyclesCounter t = if block <? api_blocks_played s then m_silenceCycles s else m_silenceCyclesCounter s.
Proof.
  intros block s t E. destruct (Z.ltb_spec block (api_blocks_played s)) as [L|L]; [exact (seek_back_counter block s t L E)|exact (seek_forward_counter block s true t L E)].
Qed.
Print Assumptions C58_seek.

(* a quiet frame leaves the COVOX and the speaker as they were *)
Theorem C58_quiet :
  forall s cycles t, do_frame s = Ok (cycles, t) -> quiet t -> cycles = cycles_per_frame s /\ m_covox t = m_covox s /\ Z.land (m_consol t) 8 = Z.land (m_consol s) 8.
Proof. intros s cycles t E [_ Q]. destruct (do_frame_keeps s cycles t E) as (_ & _ & C & K). split; [exact C|exact (K Q)]. Qed.
Print Assumptions C58_quiet.

(* but not the POKEYs: what sounds only within each frame counts as silence *)
Theorem C58_silent_refuted :
  exists s t b, start 4000 blip_sap = Ok (true, s) /\ api_detect_silence 1 s = Ok t /\
  result heard_and_left (api_generate b 100 U8 t) = Some (100, [177; 121; 126; 177; 121], 1773447 - 2 * 35568).
Proof. exact blip_run. Qed.
Print Assumptions C58_silent_refuted.
