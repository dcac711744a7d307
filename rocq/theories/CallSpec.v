(* What calling the player means: phrases for the statements about asap.c:2308-2400 *)
From Verif Require Import Base MemModel InfoModel PokeyModel MachineModel CpuSpec CpuProofs.

(* n instructions with no event in between *)
Fixpoint executes (n : nat) (s : asap) : outcome asap :=
  match n with
  | O => Ok s
  | S k => s <- execute s ;; executes k s
  end.

(* the bytes of memory from address a on *)
Definition code_at (a : Z) (l : list Z) (s : asap) : Prop := forall i, 0 <= i < len l -> ld (m_memory s) (a + i) = at_ l i.

(* where the routine is entered once per frame, as the Atari players document it; [None] for the two formats without a simple call *)
Definition play_entry (t : module_type) (player : Z) : option Z :=
  match t with
  | SAP_B => Some player
  | SAP_C | CMC | CM3 | CMR | CMS => Some (player + 6)
  | DLT => Some (player + 0x103)
  | MPT | RMT | TM2 | FC => Some (player + 3)
  | SAP_D | SAP_S | TMC => None
  end.

(* the registers, flags and stack pointer of a 6502, without memory and program counter *)
Definition registers (s : asap) := (m_a s, m_x s, m_y s, m_s s, flags_of (view s)).

(* s and t have the same memory, the two address ranges excepted *)
Definition same_memory_but (lo hi : Z) (s t : asap) : Prop :=
  forall a, 0 <= a -> ~ (lo <= a < hi) -> ld (m_memory t) a = ld (m_memory s) a.

(* a scanline starts: its number is m_nextScanlineCycle / 114 *)
Definition line_starts (s : asap) : Prop := m_nextScanlineCycle s <= m_cycle s.
(* nine cycles of it are lost to memory refresh, unless the program was caught late *)
Definition refresh (s : asap) : Z := if m_cycle s - m_nextScanlineCycle s <? 50 then 9 else 0.
(* and the player is to be called in it *)
Definition player_due (s : asap) : Prop := line_starts s /\ m_nextPlayerCycle s <= m_cycle s + refresh s.
