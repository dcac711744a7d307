(* The WAV file of a song *)
From Verif Require Import Base MemModel InfoModel InfoSpec PokeyModel MachineModel PlayModel PlaySpec SessionSpec WavSpec OptionModel.

(* a module was loaded, and perhaps songs were played since *)
Definition ready (s : asap) : Prop :=
  (exists fuel name module s0, object s0 /\ bytes module /\ 59 <= m_currentSampleRate s0 <= 262143 /\ asap_load fuel name module s0 = Ok s)
  \/ listening 59 262143 s.

(* how long a song is converted: as requested, else as in the file, else three minutes *)
Inductive length_of (requested : Z) (inf : info) (song : Z) : Z -> Prop :=
| length_requested : 0 <= requested -> length_of requested inf song requested
| length_known d : requested < 0 -> nth_error (i_durations inf) (Z.to_nat song) = Some d -> 0 <= d -> length_of requested inf song d
| length_unknown d : requested < 0 -> nth_error (i_durations inf) (Z.to_nat song) = Some d -> d < 0 -> length_of requested inf song 180000.

(* samples in WAV files are unsigned bytes or little-endian words *)
Definition asked_format (o : options) : sample_format := if o_word o then S16LE else U8.
