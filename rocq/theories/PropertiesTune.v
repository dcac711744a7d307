(* C45 and C46: the pitch of the POKEY channels. *)
From Verif Require Import Base PokeyModel PokeyProofs PokeyWitness CpuWitness MachineWitness TuneSpec TuneProofs.

(* ---- C45 ---- *)
Theorem C45_period :
  forall reg p i, history reg p -> channel_index i -> ch_periodCycles (chan p i) = channel_period reg i.
Proof. exact period_of_registers. Qed.
Print Assumptions C45_period.

Example C45_example :
  result (fun p => map ch_periodCycles [pk_ch0 p; pk_ch1 p; pk_ch2 p; pk_ch3 p]) (write_all tune started) = Some [29184; 91314; 11; 1140] /\
  map (channel_period (reg_of tune)) [0; 1; 2; 3] = [29184; 91314; 11; 1140].
Proof. exact (conj tune_periods tune_spec). Qed.

Example C45_example_history : forall p0 p, started = Ok p0 -> write_all tune (Ok p0) = Ok p -> history (reg_of tune) p.
Proof.
  intros p0 p S W. apply (write_all_history tune (fun _ => 0) p0 p); [|now apply h_power_on with 44100 blank_pokey|exact W].
  repeat constructor; discriminate.
Qed.

(* ---- C46 ---- *)
Theorem C46_ticks :
  forall reg pp limit p p' i, history reg p -> channel_index i -> restarted p i = false -> generate_until pp limit p = Ok p' ->
    ch_tickCycle (chan p' i) = first_from limit (channel_period reg i) (ch_tickCycle (chan p i)).
Proof. exact ticks_on_schedule. Qed.
Print Assumptions C46_ticks.

Theorem C46_stimer :
  forall reg pp addr data cycle p t p' i, history reg p -> channel_index i -> addr mod 16 = 9 -> pokey_poke pp addr data cycle p = Ok (t, p') ->
    ch_tickCycle (chan p' i) = if ch_tickCycle (chan p i) =? never then never else cycle + channel_period reg i.
Proof. exact stimer_restarts. Qed.
Print Assumptions C46_stimer.

Theorem C46_interrupt_timer :
  forall reg pp addr data cycle p t p' i, history reg p -> addr mod 16 = 14 -> pokey_poke pp addr data cycle p = Ok (t, p') -> i = 0 \/ i = 1 \/ i = 3 ->
    ch_timerCycle (chan p' i) = (if armed data (pk_irqst p) i
                                 then if ch_timerCycle (chan p i) =? never then first_from cycle (channel_period reg i) (ch_tickCycle (chan p i)) else ch_timerCycle (chan p i)
                                 else never) /\
    (armed data (pk_irqst p) i = true -> ch_timerCycle (chan p i) = never -> t <= ch_timerCycle (chan p' i)).
Proof. exact irqen_arms. Qed.
Print Assumptions C46_interrupt_timer.

(* channel 1 is restarted by channel 2 as they are linked; the others keep to their schedules *)
Example C46_example :
  result (fun p => map ch_tickCycle [pk_ch0 p; pk_ch1 p; pk_ch2 p; pk_ch3 p]) (write_all tune started) = Some [26; 26; 26; 26] /\
  result (fun p => map ch_tickCycle [pk_ch0 p; pk_ch1 p; pk_ch2 p; pk_ch3 p]) (p <- write_all tune started ;; generate_until fresh_pair 1000 p) = Some [3788; 91340; 1005; 1166] /\
  map (fun period => first_from 1000 period 26) [91314; 11; 1140] = [91340; 1005; 1166].
Proof. split; [apply tune_ticks|]. split; [apply tune_ticks|reflexivity]. Qed.

Example C46_example_interrupt :
  result (fun p => map ch_timerCycle [pk_ch0 p; pk_ch1 p; pk_ch2 p; pk_ch3 p]) (write_all (tune ++ [(9, 0, 100); (14, 5, 2000)]) started) = Some [29284; never; never; 2380] /\
  (first_from 2000 29184 29284, first_from 2000 1140 1240) = (29284, 2380).
Proof. vm_compute. split; reflexivity. Qed.
