(* Detection of silence *)
From Verif Require Import Base MemModel InfoModel PokeyModel MachineModel PlayModel SoundSpec.

(* a frame ends silently: the volume of all channels is 0 at its end, and neither the speaker nor the COVOX was used in it *)
Definition quiet (t : asap) : Prop := (forall i, 0 <= i < 8 -> api_channel_volume i t = 0) /\ m_gtiaOrCovoxPlayedThisFrame t = false.

(* the frames since s, with anything done in between that keeps the machine: were they quiet? *)
Inductive watched (s : asap) : list bool -> asap -> Prop :=
| watch_start t : same_machine s t -> watched s [] t
| watch_frame l t cycles t1 u (b : bool) : watched s l t -> do_frame t = Ok (cycles, t1) -> same_machine t1 u -> (b = true <-> quiet t1) -> watched s (l ++ [b]) u.

(* the number of quiet frames at the end *)
Fixpoint leading (l : list bool) : Z := match l with true :: l => 1 + leading l | _ => 0 end.
Definition run (l : list bool) : Z := leading (rev l).

(* CPU cycles in a frame and in a second of PAL *)
Definition cycles_per_frame (s : asap) : Z := if i_ntsc (m_info s) then 29868 else 35568.
Definition pal_second : Z := 1773447.

(* it was silent for long enough *)
Definition over (s : asap) (l : list bool) : Prop := m_silenceCycles s <= cycles_per_frame s * run l.

(* asking for samples and setting the sample rate (which matters from the next song on) *)
Definition generating (r : request) : Prop := match r with Generate _ _ _ | SetSampleRate _ => True | _ => False end.

(* quiet frames that make up a time in seconds *)
Definition frames_needed (seconds : Z) (s : asap) : Z := (seconds * pal_second + cycles_per_frame s - 1) / cycles_per_frame s.

(* what neither the program nor the samples change *)
Definition settings (s : asap) := (m_info s, m_currentSong s, m_currentDuration s, m_silenceCycles s, m_silenceCyclesCounter s, m_currentSampleRate s).
