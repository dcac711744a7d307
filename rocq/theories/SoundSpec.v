(* The emulated machine without the sound made from it: what stays of a player when everything that depends on the
   sample rate, on how the samples are asked for or on silence detection is forgotten. *)
From Verif Require Import Base MemModel InfoModel NativeModel PokeyModel MachineModel PlayModel.

Definition emulated_pokey (p : pokey) : pokey :=
  mkPokey (pk_ch0 p) (pk_ch1 p) (pk_ch2 p) (pk_ch3 p) (pk_audctl p) (pk_skctl p) (pk_irqst p) (pk_init p) (pk_divCycles p)
    (pk_reloadCycles1 p) (pk_reloadCycles3 p) (pk_polyIndex p) [] (pk_sumDACInputs p) 0 0 0 0.
Definition emulated_pokeys (pp : pokeyPair) : pokeyPair :=
  mkPokeyPair (pp_extraPokeyMask pp) (emulated_pokey (pp_basePokey pp)) (emulated_pokey (pp_extraPokey pp)) 0 (fun _ _ => 0) 0 0 0 0.
Definition emulated (s : asap) : asap :=
  mkAsap (m_memory s) (m_cycle s) (m_pc s) (m_a s) (m_x s) (m_y s) (m_s s) (m_nz s) (m_c s) (m_vdi s)
    (m_nextEventCycle s) (m_nextScanlineCycle s) (m_nmist s) (m_consol s) (m_covox s) (emulated_pokeys (m_pokeys s)) (m_info s)
    (m_nextPlayerCycle s) (m_tmcPerFrameCounter s) (m_currentSong s) (m_currentDuration s) 0 0 0 (m_gtiaOrCovoxPlayedThisFrame s) 0.
Definition same_machine (s t : asap) : Prop := emulated s = emulated t.

(* the machine n frames later *)
Fixpoint frames (n : nat) (s : asap) : outcome asap :=
  match n with
  | O => Ok s
  | S k => '(_, s) <- do_frame s ;; frames k s
  end.

(* t is s after n frames, with anything done in between that keeps the machine *)
Inductive frames_later : nat -> asap -> asap -> Prop :=
| no_frames s t : same_machine s t -> frames_later 0 s t
| one_more_frame n s t cycles t1 u : frames_later n s t -> do_frame t = Ok (cycles, t1) -> same_machine t1 u -> frames_later (S n) s u.

(* what an application can do between starting songs *)
Inductive request :=
| Generate (buffer : list Z) (bufferLen : Z) (format : sample_format)
| SeekForward (block : Z)
| SetSampleRate (rate : Z)
| DetectSilence (seconds : Z).
Definition serve (r : request) (s : asap) : outcome asap :=
  match r with
  | Generate buffer bufferLen format => '(_, _, s) <- api_generate buffer bufferLen format s ;; Ok s
  | SeekForward block => if block <? api_blocks_played s then Fail else '(_, s) <- api_seek_sample block s ;; Ok s
  | SetSampleRate rate => Ok (api_set_sample_rate rate s)
  | DetectSilence seconds => api_detect_silence seconds s
  end.
Fixpoint serve_all (l : list request) (s : asap) : outcome asap :=
  match l with
  | [] => Ok s
  | r :: l => s <- serve r s ;; serve_all l s
  end.

(* ---- muting ---- *)
(* channels 0 to 3 are of the first POKEY, 4 to 7 of the second *)
Definition channel_of (s : asap) (i : Z) : channel :=
  chan (if i <? 4 then pp_basePokey (m_pokeys s) else pp_extraPokey (m_pokeys s)) (i mod 4).
Definition muted (c : channel) : Prop := Z.testbit (ch_mute c) 1 = true.
(* a POKEY without its channels, and a machine without the channels of its POKEYs *)
Definition bare_pokey (p : pokey) : pokey :=
  let none := mkChannel 0 0 0 0 0 0 0 0 in
  mkPokey none none none none (pk_audctl p) (pk_skctl p) (pk_irqst p) (pk_init p) (pk_divCycles p) (pk_reloadCycles1 p) (pk_reloadCycles3 p) (pk_polyIndex p)
    (pk_deltaBuffer p) (pk_sumDACInputs p) (pk_sumDACOutputs p) (pk_iirRate p) (pk_iirAcc p) (pk_trailing p).
Definition bare (s : asap) : asap :=
  let pp := m_pokeys s in
  set_m_pokeys (set_pp_extraPokey (bare_pokey (pp_extraPokey pp)) (set_pp_basePokey (bare_pokey (pp_basePokey pp)) pp)) s.
Definition all_muted (p : pokey) : Prop := forall i, 0 <= i < 4 -> muted (chan p i) /\ ch_tickCycle (chan p i) = never.

(* what a program can find out about a POKEY, and what that will be: all but the sound and when it changes *)
Definition silent_channel (c : channel) : channel := mkChannel (ch_audf c) (ch_audc c) (ch_periodCycles c) 0 (ch_timerCycle c) 0 0 0.
Definition silent_pokey (p : pokey) : pokey :=
  mkPokey (silent_channel (pk_ch0 p)) (silent_channel (pk_ch1 p)) (silent_channel (pk_ch2 p)) (silent_channel (pk_ch3 p)) (pk_audctl p) (pk_skctl p) (pk_irqst p) (pk_init p)
    (pk_divCycles p) (pk_reloadCycles1 p) (pk_reloadCycles3 p) (pk_polyIndex p) [] 0 0 0 0 0.
Definition same_program (p q : pokey) : Prop := silent_pokey p = silent_pokey q.
