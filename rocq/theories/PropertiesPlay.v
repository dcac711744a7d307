(* Properties of playing songs: C22, C23, C33, C34, C44.  Statements only; the proofs are in SessionFacts.v and PlayWitness.v. *)
From Coq Require Import String.
From Verif Require Import Base MemModel InfoModel PokeyModel MachineModel PlayModel CpuSpec PlaySpec SessionSpec SessionFacts SapWitness MachineWitness CpuWitness PlayWitness.

(* ---- C22 ---- *)
Theorem C22_generate_counts :
  forall s buffer bufferLen f n buffer' s',
  listening 59 262143 s -> 0 <= bufferLen <= len buffer -> bufferLen <= int_max -> api_generate buffer bufferLen f s = Ok (n, buffer', s') ->
  0 <= n <= bufferLen /\ (block_size f s | n) /\ len buffer' = len buffer /\ (forall i, n <= i < len buffer -> at_ buffer' i = at_ buffer i)
  /\ api_blocks_played s' = api_blocks_played s + n / block_size f s
  /\ (0 < m_currentDuration s -> api_blocks_played s' <= blocks_in (m_currentDuration s) (m_currentSampleRate s))
  /\ (n / block_size f s < bufferLen / block_size f s ->
      0 < m_silenceCycles s /\ m_silenceCyclesCounter s' <= 0
      \/ 0 < m_currentDuration s /\ api_blocks_played s' = blocks_in (m_currentDuration s) (m_currentSampleRate s)).
Proof. exact generate_counts. Qed.
Print Assumptions C22_generate_counts.

Theorem C22_total_delivered :
  forall s k s', listening 59 262143 s -> generates s k s' ->
  0 <= k /\ api_blocks_played s' = api_blocks_played s + k
  /\ (0 < m_currentDuration s -> api_blocks_played s + k <= blocks_in (m_currentDuration s) (m_currentSampleRate s)).
Proof. exact generate_total. Qed.
Print Assumptions C22_total_delivered.

Theorem C22_generate_ends :
  forall s buffer bufferLen f, listening 59 262143 s -> 0 <= bufferLen <= len buffer -> bufferLen <= int_max ->
  api_generate buffer bufferLen f s <> OutOfFuel.
Proof. exact generate_ends. Qed.
Print Assumptions C22_generate_ends.

Theorem C22_play_song_ends :
  forall s rate song duration, listening 59 262143 s -> 59 <= rate <= 262143 -> countable duration rate ->
  api_play_song song duration (api_set_sample_rate rate s) <> OutOfFuel.
Proof. exact play_ends. Qed.
Print Assumptions C22_play_song_ends.

Theorem C22_seek_ends :
  forall s block, listening 59 262143 s -> 0 <= block <= int_max ->
  (0 < m_currentDuration s -> block <= blocks_in (m_currentDuration s) (m_currentSampleRate s)) -> api_seek_sample block s <> OutOfFuel.
Proof. exact seek_ends. Qed.
Print Assumptions C22_seek_ends.

(* after a seek past the end the returned count is negative *)
Theorem C22_seek_past_end_refuted :
  exists s s1, listening 59 262143 s /\ api_seek 20 s = Ok (true, s1)
  /\ generate_result (api_generate (repeat 7 10) 10 U8 s1) = Some (-80, repeat 7 10, 80).
Proof. exact seek_past_end. Qed.
Print Assumptions C22_seek_past_end_refuted.

(* the number of blocks of a duration is computed modulo 2^32 *)
Theorem C22_long_duration_refuted :
  exists s1 s, asap_load 100 sap_name loop_sap (api_set_sample_rate 8000 heard_asap) = Ok s1 /\ api_play_song 0 1000000000 s1 = Ok (true, s)
  /\ generate_result (api_generate (repeat 7 10) 10 U8 s) = Some (-589934592, repeat 7 10, -589934592).
Proof. exact long_song. Qed.
Print Assumptions C22_long_duration_refuted.

Example C22_example : exists s, listening 2578 69704 s /\ listening 59 262143 s /\ m_silenceCycles s = 0 /\ block_size U8 s = 1
  /\ generate_result (api_generate (repeat 7 100) 100 U8 s) = Some (80, curve ++ repeat 7 20, 80).
Proof. exact short_song. Qed.

(* ---- C23 ---- *)
Theorem C23_buffer_sizes :
  forall s f n m buf1 buf2 buf out s', listening 59 262143 s -> m_silenceCycles s <= 0 -> 0 <= n -> 0 <= m ->
  (n + m) * block_size f s <= int_max -> len buf1 = n * block_size f s -> len buf2 = m * block_size f s -> len buf = (n + m) * block_size f s ->
  delivers buf ((n + m) * block_size f s) f s out s' <->
  exists out1 s1 out2, delivers buf1 (n * block_size f s) f s out1 s1 /\ delivers buf2 (m * block_size f s) f s1 out2 s' /\ out = out1 ++ out2.
Proof. exact generate_parts. Qed.
Print Assumptions C23_buffer_sizes.

Example C23_example : exists s s1 s2, listening 59 262143 s /\ m_silenceCycles s = 0
  /\ api_seek 5 s = Ok (true, s1) /\ delivers (repeat 7 40) 40 U8 s (firstn 40 curve) s2 /\ api_blocks_played s1 = api_blocks_played s2
  /\ generate_result (api_generate (repeat 7 10) 10 U8 s1) = Some (10, repeat 128 10, 50)
  /\ generate_result (api_generate (repeat 7 10) 10 U8 s2) = Some (10, firstn 10 (skipn 40 curve), 50).
Proof. exact seek_differs. Qed.

(* ---- C33 ---- *)
Theorem C33_replay_refuted :
  exists s0 buf0 s s2, listening 59 262143 s0 /\ m_currentSong s0 = 0 /\ m_currentDuration s0 = -1
  /\ api_generate (repeat 7 10) 10 U8 s0 = Ok (10, buf0, s) /\ buf0 = [145; 161; 178; 194; 193; 192; 191; 190; 189; 188]
  /\ api_play_song 0 (-1) s = Ok (true, s2) /\ generate_result (api_generate (repeat 7 10) 10 U8 s2) = Some (10, repeat 128 10, 10).
Proof. exact replay_differs. Qed.
Print Assumptions C33_replay_refuted.

(* ---- C34 ---- *)
Theorem C34_seek_position :
  forall block s s', api_seek_sample block s = Ok (true, s') -> api_blocks_played s' = block.
Proof. exact seek_position. Qed.
Print Assumptions C34_seek_position.

Theorem C34_reported_position :
  forall s, m_currentSampleRate s mod 100 = 0 -> 0 < m_currentSampleRate s -> 0 <= api_blocks_played s -> 10 * api_blocks_played s <= int_max ->
  api_get_position s = Ok (1000 * api_blocks_played s / m_currentSampleRate s).
Proof. exact position_exact. Qed.
Print Assumptions C34_reported_position.

Theorem C34_seek_then_position :
  forall ms s s', listening 59 262143 s -> m_currentSampleRate s mod 100 = 0 -> 1000 <= m_currentSampleRate s -> 0 <= ms ->
  10 * blocks_in ms (m_currentSampleRate s) <= int_max ->
  (0 < m_currentDuration s -> blocks_in ms (m_currentSampleRate s) <= blocks_in (m_currentDuration s) (m_currentSampleRate s)) ->
  api_seek ms s = Ok (true, s') ->
  api_blocks_played s' = blocks_in ms (m_currentSampleRate s) /\ exists p, api_get_position s' = Ok p /\ ms - 1 <= p <= ms.
Proof. exact listening_seek_position. Qed.
Print Assumptions C34_seek_then_position.

(* the samples after a seek are not those of uninterrupted playback *)
Theorem C34_seek_samples_refuted :
  exists s s1 s2, listening 59 262143 s /\ m_silenceCycles s = 0
  /\ api_seek 5 s = Ok (true, s1) /\ delivers (repeat 7 40) 40 U8 s (firstn 40 curve) s2 /\ api_blocks_played s1 = api_blocks_played s2
  /\ generate_result (api_generate (repeat 7 10) 10 U8 s1) = Some (10, repeat 128 10, 50)
  /\ generate_result (api_generate (repeat 7 10) 10 U8 s2) = Some (10, firstn 10 (skipn 40 curve), 50).
Proof. exact seek_differs. Qed.
Print Assumptions C34_seek_samples_refuted.

(* after part of a frame was generated, a seek lands that many blocks before the reported position *)
Theorem C34_seek_inside_frame_refuted :
  exists s s1 s2, listening 59 262143 s /\ api_blocks_played s = 10 /\ api_seek 5 s = Ok (true, s1)
  /\ delivers (repeat 7 30) 30 U8 s (firstn 30 (skipn 10 curve)) s2
  /\ api_blocks_played s1 = api_blocks_played s2 /\ pp_readySamplesStart (m_pokeys s1) = 30 /\ pp_readySamplesStart (m_pokeys s2) = 40.
Proof. exact seek_early. Qed.
Print Assumptions C34_seek_inside_frame_refuted.

(* ten minutes at 11025 Hz are reported as 10:01.363 *)
Theorem C34_position_drift_refuted :
  exists s p, m_currentSampleRate s = 11025 /\ api_blocks_played s = blocks_in 600000 11025 /\ api_get_position s = Ok p /\ p = 601363.
Proof. exact position_drifts. Qed.
Print Assumptions C34_position_drift_refuted.

(* ---- C44 ---- *)
Theorem C44_play_song_stores :
  forall fuel name module s0 s1 song duration, object s0 -> bytes module -> 2578 <= m_currentSampleRate s0 <= 69704 ->
  asap_load fuel name module s0 = Ok s1 -> ends_with [UbOverflow; UbRead] (api_play_song song duration s1).
Proof. exact play_safe. Qed.
Print Assumptions C44_play_song_stores.

Theorem C44_generate_stores :
  forall s buffer bufferLen f, listening 2578 69704 s -> 0 <= bufferLen <= len buffer -> bufferLen <= int_max ->
  ends_with [UbOverflow; UbRead] (api_generate buffer bufferLen f s).
Proof. exact generate_safe. Qed.
Print Assumptions C44_generate_stores.

Theorem C44_seek_stores :
  forall s block, listening 2578 69704 s -> 0 <= block <= int_max ->
  (0 < m_currentDuration s -> block <= blocks_in (m_currentDuration s) (m_currentSampleRate s)) -> ends_with [UbOverflow; UbRead] (api_seek_sample block s).
Proof. exact seek_safe. Qed.
Print Assumptions C44_seek_stores.

Example C44_example : exists s, listening 2578 69704 s /\ listening 59 262143 s /\ m_silenceCycles s = 0 /\ block_size U8 s = 1
  /\ generate_result (api_generate (repeat 7 100) 100 U8 s) = Some (80, curve ++ repeat 7 20, 80).
Proof. exact short_song. Qed.
