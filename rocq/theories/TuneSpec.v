(* What a POKEY's frequency registers mean. *)
From Verif Require Import Base PokeyModel.

(* cycles of the base clock: 64 kHz, or 15 kHz if AUDCTL bit 0 is set *)
Definition base_clock (audctl : Z) : Z := if Z.testbit audctl 0 then 114 else 28.

(* the period of a counter of its own: f of the fast clock takes 4 cycles to reload *)
Definition counter (fast : bool) (audctl f : Z) : Z := if fast then f + 4 else base_clock audctl * (f + 1).
(* the period of two counters linked into one of 16 bits *)
Definition counter16 (fast : bool) (audctl f : Z) : Z := if fast then f + 7 else base_clock audctl * (f + 1).
(* the lower half of a linked counter *)
Definition counter_low (fast : bool) (audctl : Z) : Z := if fast then 256 else base_clock audctl * 256.

(* [reg] is what was last written to each of the 16 registers: AUDF1-AUDF4 are 0, 2, 4, 6, AUDCTL is 8 *)
Definition channel_period (reg : Z -> Z) (i : Z) : Z :=
  let ctl := reg 8 in
  let fast1 := Z.testbit ctl 6 in let fast3 := Z.testbit ctl 5 in
  let linked12 := Z.testbit ctl 4 in let linked34 := Z.testbit ctl 3 in
  if i =? 0 then if linked12 then counter_low fast1 ctl else counter fast1 ctl (reg 0)
  else if i =? 1 then if linked12 then counter16 fast1 ctl (reg 0 + 256 * reg 2) else counter false ctl (reg 2)
  else if i =? 2 then if linked34 then counter_low fast3 ctl else counter fast3 ctl (reg 4)
  else if linked34 then counter16 fast3 ctl (reg 4 + 256 * reg 6) else counter false ctl (reg 6).

Definition written_reg (reg : Z -> Z) (addr data : Z) : Z -> Z := fun a => if a =? addr mod 16 then data else reg a.

(* everything that happens to a POKEY: register writes and the rest; [reg] records the writes *)
Inductive history : (Z -> Z) -> pokey -> Prop :=
| h_power_on rate p0 p : pokey_initialize rate p0 = Ok p -> history (fun _ => 0) p
| h_write reg pp addr data cycle p t p' : history reg p -> byte data -> pokey_poke pp addr data cycle p = Ok (t, p') ->
    history (written_reg reg addr data) p'
| h_generate reg pp limit p p' : history reg p -> generate_until pp limit p = Ok p' -> history reg p'
| h_start_frame reg p p' : history reg p -> start_frame p = Ok p' -> history reg p'
| h_end_frame reg pp cycle p p' : history reg p -> pokey_end_frame pp cycle p = Ok p' -> history reg p'
| h_irq reg cycle next p next' p' : history reg p -> pokey_check_irq cycle next p = (next', p') -> history reg p'
| h_mute reg mask p : history reg p -> history reg (pokey_mute mask p)
| h_sample reg buffer off i f p b off' p' : history reg p -> store_sample buffer off i f p = Ok (b, off', p') -> history reg p'.

(* whether another channel's tick can restart channel i *)
Definition restarted (p : pokey) (i : Z) : bool :=
  if i =? 0 then Z.testbit (pk_audctl p) 4 || Z.testbit (pk_skctl p) 3
  else if i =? 1 then Z.testbit (pk_skctl p) 3 && negb (Z.testbit (pk_skctl p) 7)
  else if i =? 2 then Z.testbit (pk_audctl p) 3
  else false.

(* the first of the times t, t + period, t + 2 period... that is not before limit *)
Definition first_from (limit period t : Z) : Z := if limit <=? t then t else t + (limit - t + period - 1) / period * period.

(* the timers that can request an interrupt: channels 0, 1 and 3, with bits 0, 1 and 2 of IRQEN and IRQST *)
Definition timer_bit (i : Z) : Z := if i =? 3 then 2 else i.
(* enabled by IRQEN, and IRQST does not show it as pending already (a pending one has its bit clear) *)
Definition armed (irqen irqst i : Z) : bool := Z.testbit irqen (timer_bit i) && Z.testbit irqst (timer_bit i).
