(* C55: calling the player from the emulated program.  Nothing but statements here. *)
From Verif Require Import Base BaseFacts Loop MemModel InfoModel NativeModel PokeyModel MachineModel CpuSpec CpuProofs CpuFacts MachineWitness CpuWitness CallSpec CallProofs CallWitness.

(* an event calls the player exactly if it is the start of a scanline and the time of the next call has come.
   Otherwise the program does not notice it. *)
Theorem C55_event :
  forall s s', handle_event s = Ok s' ->
  (~ line_starts s /\ same_program_state s s' /\ m_cycle s' = m_cycle s /\ m_nextScanlineCycle s' = m_nextScanlineCycle s /\ m_nextPlayerCycle s' = m_nextPlayerCycle s) \/
  (line_starts s /\ m_cycle s' = m_cycle s + refresh s /\ m_nextScanlineCycle s' = m_nextScanlineCycle s + 114 /\
   ((~ player_due s /\ same_program_state s s' /\ m_nextPlayerCycle s' = m_nextPlayerCycle s) \/
    (player_due s /\ m_nextPlayerCycle s' = m_nextPlayerCycle s + 114 * i_fastplay (m_info s) /\
     exists s1, call6502_player s = Ok s1 /\ same_program_state s1 s'))).
Proof. exact handle_event_cases. Qed.
Print Assumptions C55_event.

(* all formats but three: the CPU is set to a JSR to the documented entry point followed by an instruction that waits *)
Theorem C55_entry :
  forall s e, play_entry (i_type (m_info s)) (i_player (m_info s)) = Some e ->
  exists s1, call6502_player s = Ok s1 /\
    code_at 53760 [32; e mod 256; e / 256 mod 256; 210] s1 /\ m_pc s1 = 53760 /\ same_memory_but 53760 53764 s s1 /\
    registers s1 = registers s /\ rest s1 = rest s /\ m_cycle s1 = m_cycle s.
Proof. intros s e H. exists (call6502 e s). split; [exact (call_entry s e H)|exact (call6502_entry e s)]. Qed.
Print Assumptions C55_entry.

(* that JSR enters the player with the registers of the caller; when the player returns the stack is as before and
   the CPU waits for the next event *)
Theorem C55_call :
  forall s e, cpu_ok s -> m_pc s = 53760 -> code_at 53760 [32; e mod 256; e / 256 mod 256; 210] s ->
  exists s2, execute s = Ok s2 /\ cpu_ok s2 /\ m_pc s2 = e mod 65536 /\ m_a s2 = m_a s /\ m_x s2 = m_x s /\ m_y s2 = m_y s /\ flags_of (view s2) = flags_of (view s) /\
    same_memory_but 256 512 s s2 /\ rest s2 = rest s /\
    forall t, cpu_ok t -> at_opcode 96 t -> same_stack 2 (view s2) (view t) -> ld (m_memory t) 53763 = 210 ->
    exists t1, execute t = Ok t1 /\ m_pc t1 = 53763 /\ registers t1 = (m_a t, m_x t, m_y t, m_s s, flags_of (view t)) /\ m_memory t1 = m_memory t /\ rest t1 = rest t /\
      execute t1 = Ok (set_m_cycle (m_nextEventCycle t1) t1).
Proof. exact called. Qed.
Print Assumptions C55_call.

(* type D: the program is interrupted like by an interrupt; when the player returns, it goes on where it was with all
   registers and flags *)
Theorem C55_interrupts :
  forall s, cpu_ok s -> 0 <= m_pc s < 65536 -> i_type (m_info s) = SAP_D -> 0 <= i_player (m_info s) < 65536 ->
  exists s1 s2, call6502_player s = Ok s1 /\ rest s1 = rest s /\ executes 7 s1 = Ok s2 /\ cpu_ok s2 /\ m_pc s2 = i_player (m_info s) /\ m_x s2 = m_x s /\ m_y s2 = m_y s /\
    m_s s2 = (m_s s - 8) mod 256 /\ (forall a, 512 <= a -> ~ 53760 <= a < 53775 -> ld (m_memory s2) a = ld (m_memory s) a) /\
    forall t, cpu_ok t -> at_opcode 96 t -> same_stack 8 (view s2) (view t) ->
      (forall a, 53769 <= a < 53775 -> ld (m_memory t) a = ld (m_memory s2) a) -> quiet s t ->
    exists t', executes 7 t = Ok t' /\ m_pc t' = m_pc s /\ registers t' = registers s /\ m_memory t' = m_memory t /\ rest t' = rest t.
Proof. exact player_d. Qed.
Print Assumptions C55_interrupts.
(* without a player the program just goes on *)
Theorem C55_no_player :
  forall s, i_type (m_info s) = SAP_D -> i_player (m_info s) < 0 -> call6502_player s = Ok s.
Proof. exact player_d_none. Qed.
Print Assumptions C55_no_player.

(* type S: two counters of SoftSynth *)
Theorem C55_softsynth :
  forall s, i_type (m_info s) = SAP_S -> cpu_ok s ->
  exists s1, call6502_player s = Ok s1 /\ m_pc s1 = m_pc s /\ registers s1 = registers s /\ rest s1 = rest s /\
    ld (m_memory s1) 0x45 = (ld (m_memory s) 0x45 - 1) mod 256 /\
    ld (m_memory s1) 0xB07B = (ld (m_memory s) 0xB07B + (if ld (m_memory s) 0x45 =? 1 then 1 else 0)) mod 256 /\
    forall a, 0 <= a -> a <> 0x45 -> a <> 0xB07B -> ld (m_memory s1) a = ld (m_memory s) a.
Proof. exact player_s. Qed.
Print Assumptions C55_softsynth.

(* TMC: the entry +3 after each [number of calls per frame] calls, the entry +6 in between *)
Theorem C55_tmc :
  forall s, i_type (m_info s) = TMC -> 0 <= i_music (m_info s) -> i_music (m_info s) + 31 < 65536 ->
  let n := m_tmcPerFrameCounter s - 1 in
  call6502_player s = Ok (if 1 <=? n then call6502 (i_player (m_info s) + 6) (set_m_tmcPerFrameCounter n s)
    else call6502 (i_player (m_info s) + 3) (set_m_tmcPerFrameCounter (ld (m_memory s) (i_music (m_info s) + 31)) s)).
Proof. exact player_tmc. Qed.
Print Assumptions C55_tmc.

(* the end of an initialisation routine is recognised *)
Theorem C55_init :
  forall t, cpu_ok t -> at_opcode 96 t -> m_s t = 253 -> code_at 510 [255; 209] t -> ld (m_memory t) 53760 = 210 ->
  exists t1, execute t = Ok t1 /\ m_pc t1 = 53760 /\ m_memory t1 = m_memory t /\ execute t1 = Ok (set_m_cycle (m_nextEventCycle t1) t1).
Proof. exact init_returns. Qed.
Print Assumptions C55_init.

Example C55_example_call :
  result seen (call6502_player (caller SAP_B 1536)) = Some [53760; 77; 11; 22; 200; 0] /\
  result seen (s <- call6502_player (caller SAP_B 1536) ;; executes 1 s) = Some [1536; 77; 11; 22; 198; 0] /\
  result seen (s <- call6502_player (caller SAP_B 1536) ;; executes 4 s) = Some [53763; 0; 11; 22; 200; 1] /\
  result seen (s <- call6502_player (caller MPT 1533) ;; executes 4 s) = Some [53763; 0; 11; 22; 200; 1].
Proof. exact call_runs. Qed.
Example C55_example_interrupt :
  result seen (s <- call6502_player (caller SAP_D 1536) ;; executes 7 s) = Some [1536; 22; 11; 22; 192; 0] /\
  result seen (s <- call6502_player (caller SAP_D 1536) ;; executes 16 s) = Some [1600; 77; 11; 22; 200; 1] /\
  result (fun s => flags_of (view s)) (s <- call6502_player (caller SAP_D 1536) ;; executes 16 s) = Some (flags_of (view (caller SAP_D 1536))).
Proof. exact interrupt_runs. Qed.
Example C55_example_softsynth :
  result (fun s => (ld (m_memory s) 69, ld (m_memory s) 45179)) (call6502_player (softsynth 1 255)) = Some (0, 0) /\
  result (fun s => (ld (m_memory s) 69, ld (m_memory s) 45179)) (call6502_player (softsynth 0 7)) = Some (255, 7).
Proof. exact softsynth_runs. Qed.
Example C55_example_tmc :
  result (fun s => (m_tmcPerFrameCounter s, ld (m_memory s) 53761)) (call6502_player (slow_tmc 4)) = Some (3, 6) /\
  result (fun s => (m_tmcPerFrameCounter s, ld (m_memory s) 53761)) (call6502_player (slow_tmc 1)) = Some (4, 3).
Proof. exact tmc_runs. Qed.
