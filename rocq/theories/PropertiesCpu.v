(* The 6502 properties: C28-C32 and C43.
   [view] (CpuProofs.v) reads the emulator's registers, flags and memory as a CpuSpec.cpu; [cpu_ok] are the hardware ranges;
   [documented] (CpuSpec.v) lists the 151 documented opcodes. *)
From Coq Require Import String.
From Verif Require Import Base MemModel InfoModel PokeyModel MachineModel PlayModel CpuSpec CpuProofs
  PokeyProofs MachineProofs FrameProofs CpuFacts SapWitness MachineWitness CpuWitness Loop.

(* ---- C28 ---- *)
Theorem C28_documented_instructions :
  forall r s, In r documented -> cpu_ok s -> runnable r s ->
    exists s', execute s = Ok s' /\ view s' = run_irq r (is_irq s) (view s)
      /\ m_cycle s' = m_cycle s + duration_irq r (is_irq s) (view s) /\ rest s' = rest s.
Proof. exact execute_documented. Qed.
Print Assumptions C28_documented_instructions.

Theorem C28_adc_binary :
  forall v s, cpu_ok s -> byte v -> ~ decimal s ->
    let s' := add_with_carry v s in
    m_a s' + 256 * m_c s' = m_a s + v + m_c s /\ byte (m_a s')
    /\ fV (view s') = overflows (signed (m_a s) + signed v + m_c s) /\ fN (view s') = (128 <=? m_a s') /\ fZ (view s') = (m_a s' =? 0).
Proof. exact code_adc_binary. Qed.
Print Assumptions C28_adc_binary.

Theorem C28_sbc_binary :
  forall v s, cpu_ok s -> byte v -> ~ decimal s ->
    let s' := subtract_with_carry v s in
    m_a s' - 256 * (1 - m_c s') = m_a s - v - (1 - m_c s) /\ byte (m_a s')
    /\ fV (view s') = overflows (signed (m_a s) - signed v - (1 - m_c s)) /\ fN (view s') = (128 <=? m_a s') /\ fZ (view s') = (m_a s' =? 0).
Proof. exact code_sbc_binary. Qed.
Print Assumptions C28_sbc_binary.

Theorem C28_adc_decimal :
  forall v s, cpu_ok s -> decimal s -> bcd (m_a s) -> bcd v ->
    let s' := add_with_carry v s in bcd (m_a s') /\ dec (m_a s') + 100 * m_c s' = dec (m_a s) + dec v + m_c s.
Proof. exact code_adc_decimal. Qed.
Print Assumptions C28_adc_decimal.

Theorem C28_sbc_decimal :
  forall v s, cpu_ok s -> decimal s -> bcd (m_a s) -> bcd v ->
    let s' := subtract_with_carry v s in bcd (m_a s') /\ dec (m_a s') - 100 * (1 - m_c s') = dec (m_a s) - dec v - (1 - m_c s).
Proof. exact code_sbc_decimal. Qed.
Print Assumptions C28_sbc_decimal.

Example C28_example_decimal :
  cpu_ok decimal_adc /\ decimal decimal_adc /\ bcd 0x19 /\ bcd 0x28 /\ runnable (0x69, ADC, IMM, 2, false) decimal_adc
  /\ result (fun s => (m_a s, m_c s)) (execute decimal_adc) = Some (0x48, 0).
Proof. exact decimal_adc_runs. Qed.
Example C28_example_binary :
  cpu_ok binary_adc /\ ~ decimal binary_adc
  /\ result (fun s => (m_a s, m_c s, fV (view s), fN (view s), fZ (view s))) (execute binary_adc) = Some (0x80, 0, true, true, false).
Proof. exact binary_adc_runs. Qed.

(* ---- C29 ---- *)
Theorem C29_ranges_kept :
  forall s s', cpu_ok s -> hardware_ok s -> execute s = Ok s' ->
    cpu_ok s' /\ pokey_ok (pp_basePokey (m_pokeys s')) /\ pokey_ok (pp_extraPokey (m_pokeys s')).
Proof. exact execute_ranges. Qed.
Print Assumptions C29_ranges_kept.

Example C29_example : cpu_ok slo /\ hardware_ok slo /\ exists s', execute slo = Ok s' /\ m_pc s' = 1538.
Proof. exact slo_runs. Qed.

(* ---- C30 ---- *)
Theorem C30_pha_pla :
  forall s t, cpu_ok s -> cpu_ok t -> at_opcode 0x48 s -> at_opcode 0x68 t ->
    forall s1, execute s = Ok s1 -> same_stack 1 (view s1) (view t) ->
    exists t1, execute t = Ok t1 /\ m_a t1 = m_a s /\ m_s t1 = m_s s.
Proof. exact pha_pla. Qed.
Print Assumptions C30_pha_pla.

Theorem C30_php_plp :
  forall s t, cpu_ok s -> cpu_ok t -> at_opcode 0x08 s -> at_opcode 0x28 t -> quiet s t ->
    forall s1, execute s = Ok s1 -> same_stack 1 (view s1) (view t) ->
    exists t1, execute t = Ok t1 /\ flags_of (view t1) = flags_of (view s) /\ m_s t1 = m_s s.
Proof. exact php_plp. Qed.
Print Assumptions C30_php_plp.

Theorem C30_jsr_rts :
  forall s t, cpu_ok s -> cpu_ok t -> at_opcode 0x20 s -> at_opcode 0x60 t ->
    forall s1, execute s = Ok s1 -> same_stack 2 (view s1) (view t) ->
    exists t1, execute t = Ok t1 /\ PC (view t1) = w16 (m_pc s + 3) /\ m_s t1 = m_s s.
Proof. exact jsr_rts. Qed.
Print Assumptions C30_jsr_rts.

Theorem C30_brk_rti :
  forall s t, cpu_ok s -> cpu_ok t -> at_opcode 0x00 s -> at_opcode 0x40 t -> quiet s t ->
    forall s1, execute s = Ok s1 -> same_stack 3 (view s1) (view t) ->
    exists t1, execute t = Ok t1 /\ flags_of (view t1) = flags_of (view s) /\ PC (view t1) = m_pc s + 2 /\ m_s t1 = m_s s.
Proof. exact brk_rti. Qed.
Print Assumptions C30_brk_rti.

Theorem C30_irq_rti :
  forall s t, cpu_ok s -> cpu_ok t -> is_irq s = true -> fI (view s) = false -> 0 <= m_pc s < 65536 ->
    at_opcode 0x40 t -> is_irq t = false ->
    exists s1, check_irq s = Ok s1 /\ fI (view s1) = true /\ m_cycle s1 = m_cycle s + 7
      /\ PC (view s1) = ld (m_memory s1) 65534 + 256 * ld (m_memory s1) 65535
      /\ (same_stack 3 (view s1) (view t) ->
          exists t1, execute t = Ok t1 /\ flags_of (view t1) = flags_of (view s) /\ PC (view t1) = m_pc s /\ m_s t1 = m_s s).
Proof. exact irq_rti. Qed.
Print Assumptions C30_irq_rti.

Example C30_example :
  cpu_ok brk_machine /\ at_opcode 0 brk_machine
  /\ result (fun s => (m_s s, map (fun a => ld (m_memory s) a) [0x101; 0x100; 0x1FF], m_pc s)) (execute brk_machine) = Some (254, [6; 2; 0x71], 0).
Proof. exact brk_runs. Qed.

(* ---- C31 ---- *)
Theorem C31_no_write_outside :
  forall s, cpu_ok s -> hardware_ok s ->
    room (m_pokeys s) (m_cycle s + 9) (len (pk_deltaBuffer (pp_basePokey (m_pokeys s)))) ->
    room (m_pokeys s) (m_cycle s + 9) (len (pk_deltaBuffer (pp_extraPokey (m_pokeys s)))) ->
    ends_with [UbRead; UbOverflow] (execute s).
Proof. exact execute_any. Qed.
Print Assumptions C31_no_write_outside.

Theorem C31_no_read_outside_below_top :
  forall s, cpu_ok s -> hardware_ok s -> output_ok (m_cycle s + 9) s -> 0 <= m_pc s <= 65533 -> ends_with [UbOverflow] (execute s).
Proof. exact execute_inside. Qed.
Print Assumptions C31_no_read_outside_below_top.

Theorem C31_frame_no_write_outside :
  forall s, cpu_ok s -> 0 <= m_cycle s -> chips_ok s -> rooms s ->
    wpg (fun r => In r [UbRead; UbOverflow]) False (do_6502_frame s) (fun s' => cpu_ok s' /\ 0 <= m_cycle s' /\ chips_ok s').
Proof. exact frame_no_overrun. Qed.
Print Assumptions C31_frame_no_write_outside.

Theorem C31_frame_inside :
  forall s, cpu_ok s -> 0 <= m_cycle s -> chips_ok s -> rooms s ->
    mixed (pp_basePokey (m_pokeys s)) -> mixed (pp_extraPokey (m_pokeys s)) ->
    (i_type (m_info s) = TMC -> 0 <= i_music (m_info s) <= 65504) ->
    (forall t, fetches (frame_cycles (m_info s)) (frame_start s) t -> 0 <= m_pc t <= 65533) ->
    wpg (fun r => r = UbOverflow) False (do_6502_frame s) (fun _ => True).
Proof. exact frame_inside. Qed.
Print Assumptions C31_frame_inside.

Theorem C31_read_outside_refuted :
  exists module, load_and_play 44100 (Some (str "x.sap"%string)) module = UB UbRead.
Proof. exists edge_sap. exact edge_reads. Qed.
Print Assumptions C31_read_outside_refuted.

Example C31_example : cpu_ok spin /\ chips_ok spin /\ trailing_ok spin /\ rooms spin
  /\ result (fun r => (fst r, m_pc (snd r), m_cycle (snd r))) (do_frame spin) = Some (35568, 0, 3).
Proof. exact spin_ends. Qed.

(* ---- C32 ---- *)
Theorem C32_load_address :
  forall op am n page s, In (op, LDA, am, n, page) documented -> cpu_ok s -> runnable (op, LDA, am, n, page) s ->
    exists s', execute s = Ok s' /\ m_a s' = ld (m_memory s) (ea am (view s)) /\ m_memory s' = m_memory s.
Proof. exact load_address. Qed.
Print Assumptions C32_load_address.

Theorem C32_store_address :
  forall op am n page s, In (op, STA, am, n, page) documented -> cpu_ok s -> runnable (op, STA, am, n, page) s ->
    exists s', execute s = Ok s' /\ m_memory s' = st (m_memory s) (ea am (view s)) (m_a s).
Proof. exact store_address. Qed.
Print Assumptions C32_store_address.

Theorem C32_jump_indirect :
  forall s, cpu_ok s -> runnable (0x6C, JMPI, ABS, 5, false) s ->
    exists s', execute s = Ok s' /\ PC (view s') = ld (m_memory s) (arg16 (view s)) + 256 * ld (m_memory s) (arg16 (view s) + 1).
Proof. exact jump_indirect. Qed.
Print Assumptions C32_jump_indirect.

Theorem C32_jump_page_wrap_refuted :
  exists s s', cpu_ok s /\ ld (m_memory s) (m_pc s) = 0x6C /\ execute s = Ok s'
    /\ PC (run (0x6C, JMPI, ABS, 5, false) (view s)) = 0x1234 /\ m_pc s' = 0x5634.
Proof. exact jump_wrong. Qed.
Print Assumptions C32_jump_page_wrap_refuted.

Example C32_example : ea INDX (view wrap_machine) = 0x1234 /\ runnable (0xA1, LDA, INDX, 6, false) wrap_machine.
Proof. exact wrap_runs. Qed.

(* ---- C43 ---- *)
Theorem C43_frame_ends :
  forall s, cpu_ok s -> 0 <= m_cycle s -> chips_ok s -> trailing_ok s -> do_frame s <> OutOfFuel.
Proof. exact frame_terminates. Qed.
Print Assumptions C43_frame_ends.

Example C43_example : cpu_ok spin /\ chips_ok spin /\ trailing_ok spin
  /\ result (fun r => (fst r, m_pc (snd r), m_cycle (snd r))) (do_frame spin) = Some (35568, 0, 3).
Proof. destruct spin_ends as (H1 & H2 & H3 & _ & H5). repeat (split; [assumption|]). exact H5. Qed.
