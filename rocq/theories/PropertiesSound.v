(* C53: what is emulated does not depend on the sound settings.  C54: muting.  Nothing but statements here. *)
From Verif Require Import Base BaseFacts Loop MemModel InfoModel NativeModel PokeyModel MachineModel PlayModel SessionSpec SoundSpec CpuWitness PlayWitness
  SoundProofs MuteProofs SoundWitness.

(* ---- C53 ---- *)
(* starting a song gives the same machine at every sample rate *)
Theorem C53_play_rate :
  forall song duration rate1 rate2 s b1 s1 b2 s2,
    api_play_song song duration (api_set_sample_rate rate1 s) = Ok (b1, s1) -> api_play_song song duration (api_set_sample_rate rate2 s) = Ok (b2, s2) ->
    b1 = b2 /\ same_machine s1 s2.
Proof. exact rates_same. Qed.
Print Assumptions C53_play_rate.

(* the number of frames emulated alone decides about the machine *)
Theorem C53_determined :
  forall n s t u v, same_machine s t -> frames_later n s u -> frames_later n t v -> same_machine u v.
Proof. exact later_determined. Qed.
Print Assumptions C53_determined.

(* Generate, with any buffer and format, emulates a number of frames and nothing else *)
Theorem C53_generate :
  forall buffer n format s k buffer' s', api_generate buffer n format s = Ok (k, buffer', s') -> exists m, frames_later m s s'.
Proof. exact generate_frames. Qed.
Print Assumptions C53_generate.

(* so does a seek forward; a seek back does it after starting the song again *)
Theorem C53_seek_forward :
  forall block s b s', api_blocks_played s <= block -> api_seek_sample block s = Ok (b, s') -> exists m, frames_later m s s'.
Proof. exact seek_forward_frames. Qed.
Print Assumptions C53_seek_forward.
Theorem C53_seek_back :
  forall block s s', block < api_blocks_played s -> api_seek_sample block s = Ok (true, s') ->
    exists s0 m, api_play_song (m_currentSong s) (m_currentDuration s) s = Ok (true, s0) /\ frames_later m s0 s'.
Proof. exact seek_back_frames. Qed.
Print Assumptions C53_seek_back.

(* any sequence of requests *)
Theorem C53_requests :
  forall l s s', serve_all l s = Ok s' -> exists m, frames_later m s s'.
Proof. exact serve_all_frames. Qed.
Print Assumptions C53_requests.

(* the same machine: the same memory, registers, volumes of the channels and everything the program can read *)
Theorem C53_observed :
  forall s t, same_machine s t -> m_memory s = m_memory t /\ m_pc s = m_pc t /\ m_a s = m_a t /\ m_x s = m_x t /\ m_y s = m_y t /\ m_s s = m_s t /\
    (forall ch, api_channel_volume ch s = api_channel_volume ch t) /\ (forall a, cpu_peek s a = cpu_peek t a).
Proof. exact same_observed. Qed.
Print Assumptions C53_observed.

(* a program that counts the frames: two frames at two rates and with different requests;
   a seek back starts the song again but does not restore the memory *)
Example C53_example :
  result counter (calls (start 4000 count_sap) (serve_all [Generate (repeat 0 100) 100 U8])) = Some 2 /\
  result counter (calls (start 2000 count_sap) (serve_all [SeekForward 10; DetectSilence 5; Generate (repeat 0 80) 80 S16LE])) = Some 2 /\
  result counter (calls (start 2000 count_sap) (fun s => '(_, s) <- api_seek_sample 50 s ;; '(_, s) <- api_seek_sample 10 s ;; Ok s)) = Some 3.
Proof. exact counted. Qed.

(* ---- C54 ---- *)
(* bit i of the mask is for channel i: it alone decides about bit 1 of the channel's mute flags; a muted channel does not tick.
   Nothing else of the channel changes. *)
Theorem C54_mask :
  forall mask s i, 0 <= i < 8 ->
    let c := channel_of s i in let c' := channel_of (api_mute mask s) i in
    (forall j, 0 <= j -> Z.testbit (ch_mute c') j = if j =? 1 then Z.testbit mask i else Z.testbit (ch_mute c) j) /\
    (if Z.testbit mask i then ch_tickCycle c' = never else ch_tickCycle c <> never -> ch_tickCycle c' = ch_tickCycle c) /\
    ch_audf c' = ch_audf c /\ ch_audc c' = ch_audc c /\ ch_periodCycles c' = ch_periodCycles c /\ ch_timerCycle c' = ch_timerCycle c /\ ch_out c' = ch_out c /\ ch_delta c' = ch_delta c.
Proof. exact api_mute_channel. Qed.
Print Assumptions C54_mask.
(* nothing but channels changes *)
Theorem C54_mask_only : forall mask s, bare (api_mute mask s) = bare s.
Proof. exact api_mute_bare. Qed.
Print Assumptions C54_mask_only.
Example C54_mask_example :
  map (fun i => ch_mute (channel_of (api_mute 0x21 heard_asap) i)) [0; 1; 2; 3; 4; 5; 6; 7] = [2; 0; 0; 0; 0; 2; 0; 0].
Proof. reflexivity. Qed.

(* with all four channels of a POKEY muted no register write and no end of frame makes it sound *)
Theorem C54_silent :
  forall mask p, Z.land mask 15 = 15 -> all_muted (pokey_mute mask p).
Proof. exact mute_all_muted. Qed.
Print Assumptions C54_silent.
Theorem C54_silent_writes :
  forall pp a d c p t q, all_muted p -> c < never -> pokey_poke pp a d c p = Ok (t, q) ->
    all_muted q /\ pk_deltaBuffer q = pk_deltaBuffer p /\ pk_sumDACInputs q = pk_sumDACInputs p /\ pk_sumDACOutputs q = pk_sumDACOutputs p.
Proof. exact poke_muted. Qed.
Print Assumptions C54_silent_writes.
Theorem C54_silent_frames :
  forall pp c p q, all_muted p -> c < never -> pokey_end_frame pp c p = Ok q ->
    all_muted q /\ pk_deltaBuffer q = pk_deltaBuffer p /\ pk_sumDACInputs q = pk_sumDACInputs p /\ pk_sumDACOutputs q = pk_sumDACOutputs p.
Proof. exact end_frame_muted. Qed.
Print Assumptions C54_silent_frames.

(* the joined channels of C54_joined_refuted, with channel 3 muted and with both muted *)
Example C54_silent_example :
  result (fun x => x) (calls (start 4000 joined_sap) (fun s => x <- heard 20 (api_mute 4 s) ;; y <- heard 20 (api_mute 12 s) ;; Ok (x, y)))
  = Some ((20, sounding, [0; 0; 15; 0], 2), (20, repeat 128 20, [0; 0; 15; 0], 2)).
Proof. exact joined_runs. Qed.

(* a muted channel can sound: channels 3 and 4 joined, channel 3 muted and the only one with a volume *)
Theorem C54_joined_refuted :
  exists s b s', listening 59 262143 s /\ api_generate (repeat 0 20) 20 U8 (api_mute 4 s) = Ok (20, b, s') /\
    map (fun i => api_channel_volume i s') [0; 1; 2; 3] = [0; 0; 15; 0] /\
    b = [145; 161; 177; 175; 157; 139; 121; 122; 122; 122; 139; 156; 155; 154; 153; 152; 169; 184; 166; 164].
Proof. exact muted_sounds. Qed.
Print Assumptions C54_joined_refuted.

(* muting changes what the program does: a muted channel never raises its timer interrupt *)
Theorem C54_timer_refuted :
  exists s t u, listening 59 262143 s /\ frames 1 s = Ok t /\ frames 1 (api_mute 1 s) = Ok u /\ m_memory t <> m_memory u.
Proof. exact muted_timer. Qed.
Print Assumptions C54_timer_refuted.

(* muting and unmuting around volume changes makes POKEY read past its table of volumes *)
Theorem C54_volume_refuted :
  exists s t u, listening 59 262143 s /\ frames 1 s = Ok t /\ frames 1 (api_mute 15 t) = Ok u /\ frames 1 (api_mute 0 u) = UB UbRead.
Proof. exact mute_overflows. Qed.
Print Assumptions C54_volume_refuted.

(* but enabling a timer interrupt is the only thing that lets a program notice the muting *)
Theorem C54_program :
  forall mask p, same_program (pokey_mute mask p) p.
Proof. exact mute_same_program. Qed.
Print Assumptions C54_program.
Theorem C54_program_writes :
  forall pp pp' a d c p q t1 p1 t2 q1, Z.land a 15 <> 14 \/ Z.land d 7 = 0 -> same_program p q ->
    pokey_poke pp a d c p = Ok (t1, p1) -> pokey_poke pp' a d c q = Ok (t2, q1) -> t1 = t2 /\ same_program p1 q1.
Proof. exact poke_same_program. Qed.
Print Assumptions C54_program_writes.
Theorem C54_program_frames :
  forall pp pp' c p q p1 q1, same_program p q -> pokey_end_frame pp c p = Ok p1 -> pokey_end_frame pp' c q = Ok q1 -> same_program p1 q1.
Proof. exact end_frame_same_program. Qed.
Print Assumptions C54_program_frames.
Theorem C54_program_interrupts :
  forall c n p q, same_program p q ->
    fst (pokey_check_irq c n p) = fst (pokey_check_irq c n q) /\ same_program (snd (pokey_check_irq c n p)) (snd (pokey_check_irq c n q)).
Proof. exact check_irq_same_program. Qed.
Print Assumptions C54_program_interrupts.
Theorem C54_program_reads :
  forall a c pp pp', pp_extraPokeyMask pp = pp_extraPokeyMask pp' -> same_program (pp_basePokey pp) (pp_basePokey pp') -> same_program (pp_extraPokey pp) (pp_extraPokey pp') ->
    pair_peek a c pp = pair_peek a c pp'.
Proof. exact peek_same_program. Qed.
Print Assumptions C54_program_reads.
(* AUDF1, AUDC1 and a change to AUDCTL on a muted and on a sounding chip *)
Example C54_program_example :
  result (fun p => (ch_audf (pk_ch0 p), ch_audc (pk_ch0 p), ch_periodCycles (pk_ch0 p), pk_sumDACInputs p)) (chip (fun p => p)) = Some (9, 0x1F, 1140, 15) /\
  result (fun p => (ch_audf (pk_ch0 p), ch_audc (pk_ch0 p), ch_periodCycles (pk_ch0 p), pk_sumDACInputs p)) (chip (pokey_mute 15)) = Some (9, 0x1F, 1140, 0).
Proof. exact chips. Qed.
