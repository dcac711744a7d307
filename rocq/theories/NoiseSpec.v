(* Specification of POKEY noise: linear feedback shift registers (Atari Hardware Manual, POKEY chapter).
   Nothing here refers to the emulator. *)
From Verif Require Import Base.

(* one clock of a register of [width] bits: it moves right, the bit shifted in is the sum of bit 0 and bit [tap] *)
Definition clock (width tap r : Z) : Z :=
  r / 2 + (if r mod 2 =? (r / 2 ^ tap) mod 2 then 0 else 2 ^ (width - 1)).

(* the contents after n clocks, starting with all bits set *)
Fixpoint clocked (width tap : Z) (n : nat) : Z :=
  match n with O => 2 ^ width - 1 | S k => clock width tap (clocked width tap k) end.
Definition register (width tap n : Z) : Z := clocked width tap (Z.to_nat n).

(* POKEY's four registers: width and tap *)
Definition registers : list (Z * Z) := [(4, 1); (5, 2); (9, 5); (17, 5)].

(* the bit a register puts out at clock n *)
Definition noise (width tap n : Z) : Z := register width tap n mod 2.

(* What a channel puts out when its counter ends at clock n.  Bit 4 of AUDC is volume only; bit 7 clear lets the 5-bit register suppress
   the event; bit 5 selects a square wave, bit 6 the 4-bit register, otherwise the 9-bit or 17-bit register is sampled.  While both SKCTL
   bits are 0 ([init]) the registers are held and only a pure square wave goes on.  The emulator's 4- and 5-bit registers are active low
   and their 9- and 17-bit counterparts are sampled 1 and 9 clocks later. *)
Definition next_output (audc : Z) (init poly9 : bool) (n out : Z) : Z :=
  let bit := Z.testbit audc in
  if bit 4 then out
  else if init && negb (bit 7 && bit 5) then out
  else if negb (bit 7) && (noise 5 2 n =? 1) then out
  else if bit 5 then 1 - out
  else if bit 6 then 1 - noise 4 1 n
  else if poly9 then noise 9 5 (n + 1) else noise 17 5 (n + 9).
