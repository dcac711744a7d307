(* C56: how often the player is called.  Nothing but statements here. *)
From Coq Require Import String.
From Verif Require Import Base BaseFacts Loop MemModel InfoModel NativeModel PokeyModel MachineModel PlayModel FrameProofs SoundSpec SoundProofs CpuWitness PlayWitness SoundWitness
  CallSpec RateSpec RateProofs CallWitness.

(* counted from the start of the song, the player is called in the scanlines 0, f, 2f, ... *)
Theorem C56_scanlines :
  forall song duration s s1 n l t, 0 < i_fastplay (m_info s) -> api_play_song song duration s = Ok (true, s1) -> song_calls n s1 l t ->
    l = multiples (i_fastplay (m_info s)) (Z.of_nat n * lines (m_info s)).
Proof.
  intros song duration s s1 n l t F P S. destruct (started _ _ _ _ P) as [C I]. rewrite <- I in *. exact (song_multiples n s1 l t F C S).
Qed.
Print Assumptions C56_scanlines.

(* and this describes every way of playing on: any requests after starting the song *)
Theorem C56_session :
  forall song duration s s1 requests t, 0 < i_fastplay (m_info s) -> api_play_song song duration s = Ok (true, s1) -> serve_all requests s1 = Ok t ->
    exists n, song_calls n s1 (multiples (i_fastplay (m_info s)) (Z.of_nat n * lines (m_info s))) t.
Proof.
  intros song duration s s1 requests t F P S. destruct (started _ _ _ _ P) as [C I]. rewrite <- I in *. destruct (serve_all_frames _ _ _ S) as (n & L).
  exists n. destruct (later_calls n s1 t F C L) as (l & K). pose proof (song_multiples n s1 l t F C K) as E. rewrite E in K. exact K.
Qed.
Print Assumptions C56_session.

(* the condition on the interval holds after every successful load *)
Theorem C56_loaded :
  forall fuel name module s s', bytes module -> len (i_songPos (m_info s)) = 32 -> asap_load fuel name module s = Ok s' -> 1 <= i_fastplay (m_info s') <= 32767.
Proof. exact load_fastplay. Qed.
Print Assumptions C56_loaded.

(* how many calls in n scanlines *)
Theorem C56_count :
  forall f n, 0 < f -> 0 <= n -> len (multiples f n) = (n + f - 1) / f.
Proof. exact multiples_len. Qed.
Print Assumptions C56_count.

(* the calls are made in the first 106 of the 114 cycles of their scanline *)
Theorem C56_on_time :
  forall s l t, m_cycle s <= 106 -> plays (frame_cycles (m_info s)) (frame_start s) l t -> calls_player t ->
    let j := m_nextScanlineCycle t / 114 in 114 * j <= m_cycle t <= 114 * j + 106.
Proof. exact on_time. Qed.
Print Assumptions C56_on_time.

(* while the song is being initialised there are none *)
Theorem C56_prepared :
  forall song duration s s', play_prepare song duration s = Ok s' -> m_cycle s' = 0 /\ m_nextPlayerCycle s' = never.
Proof. exact prepared_never. Qed.
Print Assumptions C56_prepared.
Theorem C56_initialising :
  forall s, m_cycle s <= 106 -> m_nextPlayerCycle s = never ->
    (forall l t, plays (frame_cycles (m_info s)) (frame_start s) l t -> l = []) /\
    (forall s', do_6502_frame s = Ok s' -> m_cycle s' <= 106 /\ m_nextPlayerCycle s' = never).
Proof. intros s C N. split; [intros l t P; exact (proj1 (not_called s l t C N P))|intros s'; exact (init_never s s' C N)]. Qed.
Print Assumptions C56_initialising.

(* two frames with the player called every 312, 100 and 500 scanlines *)
Example C56_example :
  result counter (calls (start 2000 (fast_sap "312")) (frames 2)) = Some 2 /\
  result counter (calls (start 2000 (fast_sap "100")) (frames 2)) = Some 7 /\
  result counter (calls (start 2000 (fast_sap "500")) (frames 2)) = Some 2.
Proof. exact rate_runs. Qed.
Example C56_example_scanlines : multiples 100 624 = [0; 100; 200; 300; 400; 500; 600] /\ multiples 500 624 = [0; 500].
Proof. exact multiples_runs. Qed.
