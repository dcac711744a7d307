(* Specification vocabulary for sequences of calls on one ASAP object *)
From Verif Require Import Base MemModel InfoModel PokeyModel MachineModel PlayModel PlaySpec.

(* An object as ASAP_New gives it: anything may be in its memory. *)
Definition object (s : asap) : Prop := byte_mem (m_memory s) /\ len (i_songPos (m_info s)) = 32.

(* the number of blocks in a duration; C computes it modulo 2^32 *)
Definition blocks_in (milliseconds rate : Z) : Z := milliseconds * rate / 1000.
Definition countable (duration rate : Z) : Prop := blocks_in duration rate <= int_max.

(* The states a player of songs can be in, at sample rates from [lo] to [hi]: a module was loaded, and after that songs
   were started, samples were generated, channels were muted and the position was changed within the duration. *)
Inductive listening (lo hi : Z) : asap -> Prop :=
| listen_load fuel name module s0 s1 song duration s :
    object s0 -> bytes module -> lo <= m_currentSampleRate s0 <= hi -> countable duration (m_currentSampleRate s0) ->
    asap_load fuel name module s0 = Ok s1 -> api_play_song song duration s1 = Ok (true, s) -> listening lo hi s
| listen_song rate song duration s s' :
    listening lo hi s -> lo <= rate <= hi -> countable duration rate ->
    api_play_song song duration (api_set_sample_rate rate s) = Ok (true, s') -> listening lo hi s'
| listen_generate buffer bufferLen f n buffer' s s' :
    listening lo hi s -> 0 <= bufferLen <= len buffer -> bufferLen <= int_max ->
    api_generate buffer bufferLen f s = Ok (n, buffer', s') -> listening lo hi s'
| listen_seek block s s' :
    listening lo hi s -> 0 <= block <= int_max ->
    (0 < m_currentDuration s -> block <= blocks_in (m_currentDuration s) (m_currentSampleRate s)) ->
    api_seek_sample block s = Ok (true, s') -> listening lo hi s'
| listen_mute mask s : listening lo hi s -> listening lo hi (api_mute mask s)
| listen_silence seconds s s' : listening lo hi s -> api_detect_silence seconds s = Ok s' -> listening lo hi s'.

(* the bytes of one block: one sample of each channel *)
Definition block_size (f : sample_format) (s : asap) : Z := i_channels (m_info s) * bytes_per_sample f.

(* the bytes a call delivers *)
Definition delivers (buffer : list Z) (bufferLen : Z) (f : sample_format) (s : asap) (out : list Z) (s' : asap) : Prop :=
  exists n buffer', api_generate buffer bufferLen f s = Ok (n, buffer', s') /\ out = firstn (Z.to_nat n) buffer' /\ len out = n.

(* a sequence of calls: the number of blocks it delivers *)
Inductive generates : asap -> Z -> asap -> Prop :=
| generates_none s : generates s 0 s
| generates_more s k s1 buffer bufferLen f n buffer' s' :
    generates s k s1 -> 0 <= bufferLen <= len buffer -> bufferLen <= int_max ->
    api_generate buffer bufferLen f s1 = Ok (n, buffer', s') -> generates s (k + n / block_size f s) s'.
