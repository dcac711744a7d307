(* Properties of WAV headers: C21.  Statements only; the proofs are in WavProofs.v and WavWitness.v. *)
From Coq Require Import String.
From Verif Require Import Base MemModel InfoModel InfoSpec PokeyModel MachineModel PlayModel PlaySpec SessionSpec SapWitness MachineWitness CpuWitness PlayWitness WavSpec WavProofs WavWitness.

(* ---- C21 ---- *)
(* the header is a RIFF/WAVE header of the samples that remain, the rest of the buffer is not changed *)
Theorem C21_header :
  forall s f (metadata : bool) buffer year hdr,
  listening 59 262143 s -> 0 < m_currentDuration s -> bytes (i_title (m_info s)) -> bytes (i_author (m_info s)) -> year_text (i_date (m_info s)) year ->
  hdr = wave_header (i_channels (m_info s)) (m_currentSampleRate s) (bytes_per_sample f)
          (if metadata then list_chunk (i_title (m_info s)) (i_author (m_info s)) year else [])
          ((blocks_in (m_currentDuration s) (m_currentSampleRate s) - api_blocks_played s) * block_size f s) ->
  len hdr <= len buffer -> len hdr + (blocks_in (m_currentDuration s) (m_currentSampleRate s) - api_blocks_played s) * block_size f s <= int_max ->
  api_wav_header buffer f metadata s = Ok (len hdr, hdr ++ skipn (Z.to_nat (len hdr)) buffer).
Proof. exact wav_header_describes. Qed.
Print Assumptions C21_header.

(* this is how many bytes one big enough call delivers *)
Theorem C21_size_delivered :
  forall s f buffer bufferLen n buffer' s',
  listening 59 262143 s -> 0 < m_currentDuration s -> m_silenceCycles s <= 0 -> 0 <= bufferLen <= len buffer -> bufferLen <= int_max ->
  (blocks_in (m_currentDuration s) (m_currentSampleRate s) - api_blocks_played s) * block_size f s <= bufferLen ->
  api_generate buffer bufferLen f s = Ok (n, buffer', s') ->
  n = (blocks_in (m_currentDuration s) (m_currentSampleRate s) - api_blocks_played s) * block_size f s.
Proof. exact wav_size_delivered. Qed.
Print Assumptions C21_size_delivered.

(* and how many blocks any sequence of calls delivers before a call delivers nothing *)
Theorem C21_size_of_sequence :
  forall s k s1 f buffer bufferLen buffer' s',
  listening 59 262143 s -> 0 < m_currentDuration s -> m_silenceCycles s <= 0 -> generates s k s1 ->
  block_size f s <= bufferLen <= len buffer -> bufferLen <= int_max -> api_generate buffer bufferLen f s1 = Ok (0, buffer', s') ->
  k = blocks_in (m_currentDuration s) (m_currentSampleRate s) - api_blocks_played s.
Proof. exact wav_size_sequence. Qed.
Print Assumptions C21_size_of_sequence.

Theorem C21_metadata_even : forall title author year, Z.even (len (list_chunk title author year)) = true.
Proof. exact list_chunk_even. Qed.
Print Assumptions C21_metadata_even.

(* with texts that the setters accept the header fits 342 bytes *)
Theorem C21_metadata_fits : forall title author year, len title <= 127 -> len author <= 127 -> len year <= 4 -> len (list_chunk title author year) <= 298.
Proof. exact list_chunk_len. Qed.
Print Assumptions C21_metadata_fits.

Example C21_example : exists s, listening 59 262143 s /\ i_title (m_info s) = str "Tune" /\ i_author (m_info s) = str "Bo" /\ i_date (m_info s) = str "09/1995"
  /\ blocks_in (m_currentDuration s) (m_currentSampleRate s) = 80
  /\ api_wav_header (repeat 7 106) S16LE true s = Ok (96, tune_header ++ repeat 7 10).
Proof. exact tune_wav. Qed.

(* the data chunk can be odd, and its padding is not counted *)
Theorem C21_odd_data_refuted :
  exists s buffer' s', listening 59 262143 s /\ 0 < m_currentDuration s
  /\ api_wav_header (repeat 7 44) U8 false s = Ok (44, wave_header 1 8100 1 [] 81) /\ api_generate (repeat 7 82) 82 U8 s = Ok (81, buffer', s').
Proof. exact odd_wav. Qed.
Print Assumptions C21_odd_data_refuted.

(* a song without a duration gets a negative size *)
Theorem C21_endless_refuted :
  exists s, listening 59 262143 s /\ m_currentDuration s = -1
  /\ result (fun x => skipn 40 (snd x)) (api_wav_header (repeat 7 44) U8 false s) = Some [248; 255; 255; 255].
Proof. exact endless_wav. Qed.
Print Assumptions C21_endless_refuted.

(* the sizes overflow int for long songs *)
Theorem C21_overflow_refuted : exists s, listening 59 262143 s /\ 0 < m_currentDuration s /\ api_wav_header (repeat 7 44) U8 false s = UB UbOverflow.
Proof. exact long_wav. Qed.
Print Assumptions C21_overflow_refuted.

(* a file can bring a longer title *)
Theorem C21_long_title_refuted : exists s, listening 59 262143 s /\ len (i_title (m_info s)) = 260 /\ api_wav_header (repeat 7 342) U8 true s = UB UbWrite.
Proof. exact wide_wav. Qed.
Print Assumptions C21_long_title_refuted.
