(* Concrete instructions and frames for the examples and refutations of PropertiesCpu.v *)
From Coq Require Import String.
From Verif Require Import Base BaseFacts Loop MemModel InfoModel InfoProofs PokeyModel MachineModel PlayModel CpuSpec CpuArith CpuProofs
  PokeyProofs MachineProofs FrameProofs CpuFacts SapWitness MachineWitness.

Definition result {T R} (f : T -> R) (o : outcome T) : option R := match o with Ok x => Some (f x) | _ => None end.

(* JMP (06FF): the pointer's low byte 34 is at 06FF, its high byte 12 at 0600 *)
Definition jump_machine : asap :=
  set_m_memory (st_list (st (st_list mem0 1536 [18; 86]) 1791 52) 1024 [108; 255; 6]) (machine 1024 0 0 0 255 1 0 0 []).

Lemma machine_cpu_ok pc a x y sp nz c vdi code :
  byte a -> byte x -> byte y -> byte sp -> 0 <= nz < 512 -> 0 <= c < 2 -> Z.land vdi 76 = vdi -> bytes code ->
  cpu_ok (machine pc a x y sp nz c vdi code).
Proof. intros. constructor; try assumption. apply byte_mem_st_list; [apply byte_mem_mem0|assumption]. Qed.

Ltac machine_tac := apply machine_cpu_ok; try (unfold byte; lia); [reflexivity|apply bytesb_spec; reflexivity].

Lemma jump_machine_ok : cpu_ok jump_machine.
Proof.
  apply cpu_ok_memory; [|machine_tac]. apply byte_mem_st_list; [|apply bytesb_spec; reflexivity].
  apply byte_mem_st; [|unfold byte; lia]. apply byte_mem_st_list; [apply byte_mem_mem0|apply bytesb_spec; reflexivity].
Qed.

(* the 6502 would go to 1234, the emulator goes to 5634 *)
Lemma jump_wrong : exists s s', cpu_ok s /\ ld (m_memory s) (m_pc s) = 0x6C /\ execute s = Ok s' /\
  PC (run (0x6C, JMPI, ABS, 5, false) (view s)) = 0x1234 /\ m_pc s' = 0x5634.
Proof.
  destruct (execute jump_machine) as [s'| | |] eqn:E; [|discriminate E|discriminate E|discriminate E].
  assert (P : result m_pc (execute jump_machine) = Some 0x5634) by (vm_compute; reflexivity). rewrite E in P. injection P as P.
  exists jump_machine, s'. split; [exact jump_machine_ok|]. split; [reflexivity|]. split; [exact E|]. split; [vm_compute; reflexivity|exact P].
Qed.

(* fresh POKEYs are sane *)
Lemma fresh_channel_ok : chan_ok fresh_channel.
Proof. constructor; cbn; unfold byte, never; lia. Qed.
Lemma fresh_ok : pokey_ok fresh_pokey.
Proof. constructor; try exact fresh_channel_ok; cbn; unfold byte; lia. Qed.
Lemma fresh_mixed : mixed fresh_pokey.
Proof. constructor; try (split; cbn; lia); vm_compute; repeat split; try reflexivity; discriminate. Qed.
Lemma fresh_len : len (pk_deltaBuffer fresh_pokey) = 918.
Proof. vm_compute. reflexivity. Qed.
Lemma fresh_room limit : 0 <= limit <= 35592 -> room fresh_pair limit (len (pk_deltaBuffer fresh_pokey)).
Proof. intros H. rewrite fresh_len. unfold room. cbn [pp_sampleFactor pp_sampleOffset fresh_pair]. lia. Qed.

Lemma machine_hardware pc a x y sp nz c vdi code : hardware_ok (machine pc a x y sp nz c vdi code).
Proof. constructor; try exact fresh_ok; cbn; lia. Qed.
Lemma machine_output pc a x y sp nz c vdi code : output_ok 9 (machine pc a x y sp nz c vdi code).
Proof. split; [exact fresh_mixed|]. split; [exact fresh_mixed|]. split; apply fresh_room; lia. Qed.
Lemma machine_chips pc a x y sp nz c vdi code : chips_ok (machine pc a x y sp nz c vdi code).
Proof. split; exact fresh_ok. Qed.
Lemma machine_rooms pc a x y sp nz c vdi code : rooms (machine pc a x y sp nz c vdi code).
Proof. split; apply fresh_room; unfold last_cycle; cbn; lia. Qed.
Lemma machine_trailing pc a x y sp nz c vdi code : trailing_ok (machine pc a x y sp nz c vdi code).
Proof. split; cbn [m_pokeys machine fresh_pair pp_basePokey pp_extraPokey]; rewrite fresh_len; cbn; lia. Qed.

(* SED; SEC; LDA #$19; ADC #$28: 19 + 28 + 1 = 48 *)
Definition decimal_adc : asap := machine 1536 0x19 0 0 255 1 1 8 [0x69; 0x28].
Lemma decimal_adc_runs : cpu_ok decimal_adc /\ decimal decimal_adc /\ bcd 0x19 /\ bcd 0x28 /\
  runnable (0x69, ADC, IMM, 2, false) decimal_adc /\ result (fun s => (m_a s, m_c s)) (execute decimal_adc) = Some (0x48, 0).
Proof.
  split; [machine_tac|]. split; [discriminate|]. split; [unfold bcd; lia|]. split; [unfold bcd; lia|].
  split; [|vm_compute; reflexivity]. repeat split; try discriminate.
Qed.
(* LDA #$7F; CLC; ADC #$01: overflow *)
Definition binary_adc : asap := machine 1536 0x7F 0 0 255 1 0 0 [0x69; 0x01].
Lemma binary_adc_runs : cpu_ok binary_adc /\ ~ decimal binary_adc /\
  result (fun s => (m_a s, m_c s, fV (view s), fN (view s), fZ (view s))) (execute binary_adc) = Some (0x80, 0, true, true, false).
Proof. split; [machine_tac|]. split; [intros H; apply H; reflexivity|vm_compute; reflexivity]. Qed.

(* SLO ($80),Y, an undocumented opcode *)
Definition slo : asap := machine 1536 0x55 1 2 0 1 1 0 [0x13; 0x80].
Lemma slo_runs : cpu_ok slo /\ hardware_ok slo /\ exists s', execute slo = Ok s' /\ m_pc s' = 1538.
Proof.
  split; [machine_tac|]. split; [apply machine_hardware|].
  assert (P : result m_pc (execute slo) = Some 1538) by (vm_compute; reflexivity).
  destruct (execute slo) as [s'| | |]; try discriminate P. injection P as P. exists s'. now split.
Qed.

(* BRK with the stack pointer about to wrap; RTI at the handler *)
Definition brk_machine : asap := machine 1536 0 0 0 1 1 1 64 [0].
Lemma brk_runs : cpu_ok brk_machine /\ at_opcode 0 brk_machine /\
  result (fun s => (m_s s, map (fun a => ld (m_memory s) a) [0x101; 0x100; 0x1FF], m_pc s)) (execute brk_machine) = Some (254, [6; 2; 0x71], 0).
Proof. split; [machine_tac|]. split; [split; [cbn; lia|reflexivity]|vm_compute; reflexivity]. Qed.

(* LDA ($FF,X) with X = 0 takes the pointer from FF and 00 *)
Definition wrap_machine : asap := set_m_memory (st_list (st_list (st_list mem0 1536 [0xA1; 0xFF]) 0xFF [0x34]) 0 [0x12]) (machine 1536 0 0 0 255 1 0 0 []).
Lemma wrap_runs : ea INDX (view wrap_machine) = 0x1234 /\ runnable (0xA1, LDA, INDX, 6, false) wrap_machine.
Proof. split; [vm_compute; reflexivity|]. repeat split; discriminate. Qed.

(* a file makes the emulator read past the 64K of memory *)
Lemma edge_reads : load_and_play 44100 (Some (str "x.sap"%string)) edge_sap = UB UbRead.
Proof. vm_compute. reflexivity. Qed.

(* a player (at address 0) that is an endless chain of BRKs: the frame still ends *)
Definition spin : asap := machine 1536 0 0 0 255 1 0 0 [0x4C; 0x00; 0x06].
Lemma spin_ends : cpu_ok spin /\ chips_ok spin /\ trailing_ok spin /\ rooms spin /\
  result (fun r => (fst r, m_pc (snd r), m_cycle (snd r))) (do_frame spin) = Some (35568, 0, 3).
Proof.
  split; [machine_tac|]. split; [apply machine_chips|]. split; [apply machine_trailing|]. split; [apply machine_rooms|].
  vm_compute. reflexivity.
Qed.
