(* C64: the WAV and RAW files that asapconv writes.  Nothing else is in this file. *)
From Coq Require Import String.
From Verif Require Import Base MemModel InfoModel InfoSpec PokeyModel MachineModel PlayModel PlaySpec SessionSpec SapWitness MachineWitness CpuWitness PlayWitness WavSpec OptionModel OutputModel OutputSpec OutputProofs OutputWitness.

(* A file is the header for exactly the samples that follow it, and the samples are those of
   the whole song, as one call of ASAP_Generate with a buffer that is big enough delivers them. *)
Theorem C64_file :
  forall fuel buffer o header song s file s' d year hdr,
  ready s -> m_silenceCycles s <= 0 -> len buffer = 8192 -> length_of (o_duration o) (m_info s) song d -> 0 < d -> countable d (m_currentSampleRate s) ->
  bytes (i_title (m_info s)) -> bytes (i_author (m_info s)) -> year_text (i_date (m_info s)) year ->
  hdr = wave_header (i_channels (m_info s)) (m_currentSampleRate s) (bytes_per_sample (asked_format o))
          (if o_tag o then list_chunk (i_title (m_info s)) (i_author (m_info s)) year else []) (blocks_in d (m_currentSampleRate s) * block_size (asked_format o) s) ->
  len hdr <= 8192 -> blocks_in d (m_currentSampleRate s) * block_size (asked_format o) s + 8192 <= int_max ->
  conv_file fuel buffer o header song s = Ok (file, s') ->
  exists s1 data, api_play_song song d s = Ok (true, s1) /\ file = (if header then hdr else []) ++ data /\ len data = blocks_in d (m_currentSampleRate s) * block_size (asked_format o) s /\
    forall big, len big = (len data / 8192 + 1) * 8192 -> delivers big (len big) (asked_format o) (api_mute (o_mute o) s1) data s'.
Proof. exact conv_file_ok. Qed.
Print Assumptions C64_file.
Example C64_file_ex : exists s s', ready s /\ m_silenceCycles s = 0 /\ m_currentSampleRate s = 8000 /\
  conv_file 2 (repeat 0 (Z.to_nat 8192)) (with_duration 10 (with_word false initial_options)) true 0 s = Ok (wave_header 1 8000 1 [] 80 ++ curve, s').
Proof. exact short_file. Qed.

(* the loop that writes the samples ends *)
Theorem C64_ends :
  forall fuel buffer f s, listening 59 262143 s -> 0 < m_currentDuration s -> m_silenceCycles s <= 0 -> len buffer = 8192 ->
  (blocks_in (m_currentDuration s) (m_currentSampleRate s) - api_blocks_played s) * block_size f s < Z.of_nat fuel * 8192 -> conv_samples fuel buffer f s <> OutOfFuel.
Proof. exact samples_end. Qed.
Print Assumptions C64_ends.

(* and writes all samples, wherever it starts *)
Theorem C64_samples :
  forall fuel buffer f s out s' left, listening 59 262143 s -> 0 < m_currentDuration s -> m_silenceCycles s <= 0 -> len buffer = 8192 ->
  left = (blocks_in (m_currentDuration s) (m_currentSampleRate s) - api_blocks_played s) * block_size f s -> left + 8192 <= int_max ->
  conv_samples fuel buffer f s = Ok (out, s') ->
  len out = left /\ forall big, len big = (left / 8192 + 1) * 8192 -> delivers big (len big) f s out s'.
Proof. intros fuel buffer f s out s' left L D S B -> M H. exact (samples_all fuel buffer f s out s' L D S B M H). Qed.
Print Assumptions C64_samples.
