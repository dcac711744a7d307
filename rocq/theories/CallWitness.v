(* Concrete runs for the examples of PropertiesCall.v and PropertiesRate.v *)
From Coq Require Import String.
From Verif Require Import Base BaseFacts Loop MemModel InfoModel NativeModel PokeyModel MachineModel PlayModel CpuSpec CpuProofs SessionSpec SapWitness MachineWitness CpuWitness PlayWitness
  SoundSpec SoundWitness CallSpec RateSpec.

(* a machine in the middle of a program at 1600, with a player at 1536: INC 80, LDA #0, RTS *)
Definition caller (type : module_type) (player : Z) : asap :=
  set_m_memory (st_list (st_list mem0 1600 [0xEA; 0xEA]) 1536 [0xE6; 0x80; 0xA9; 0; 0x60])
    (set_m_info (set_player player (set_type type blank_info)) (machine 1600 77 11 22 200 5 1 0x40 [])).
Definition seen (s : asap) : list Z := [m_pc s; m_a s; m_x s; m_y s; m_s s; ld (m_memory s) 128].
Lemma call_runs :
  result seen (call6502_player (caller SAP_B 1536)) = Some [53760; 77; 11; 22; 200; 0] /\
  result seen (s <- call6502_player (caller SAP_B 1536) ;; executes 1 s) = Some [1536; 77; 11; 22; 198; 0] /\
  result seen (s <- call6502_player (caller SAP_B 1536) ;; executes 4 s) = Some [53763; 0; 11; 22; 200; 1] /\
  result seen (s <- call6502_player (caller MPT 1533) ;; executes 4 s) = Some [53763; 0; 11; 22; 200; 1].
Proof. vm_compute. repeat split. Qed.
Lemma interrupt_runs :
  result seen (s <- call6502_player (caller SAP_D 1536) ;; executes 7 s) = Some [1536; 22; 11; 22; 192; 0] /\
  result seen (s <- call6502_player (caller SAP_D 1536) ;; executes 16 s) = Some [1600; 77; 11; 22; 200; 1] /\
  result (fun s => flags_of (view s)) (s <- call6502_player (caller SAP_D 1536) ;; executes 16 s) = Some (flags_of (view (caller SAP_D 1536))).
Proof. vm_compute. repeat split. Qed.
Definition softsynth (a b : Z) : asap := set_m_memory (st (st mem0 69 a) 45179 b) (caller SAP_S 0).
Lemma softsynth_runs :
  result (fun s => (ld (m_memory s) 69, ld (m_memory s) 45179)) (call6502_player (softsynth 1 255)) = Some (0, 0) /\
  result (fun s => (ld (m_memory s) 69, ld (m_memory s) 45179)) (call6502_player (softsynth 0 7)) = Some (255, 7).
Proof. vm_compute. repeat split. Qed.
Definition slow_tmc (counter : Z) : asap := set_m_tmcPerFrameCounter counter (set_m_memory (st mem0 (8192 + 31) 4) (set_m_info (set_music 8192 (set_player 1280 (set_type TMC blank_info))) (caller TMC 0))).
Lemma tmc_runs :
  result (fun s => (m_tmcPerFrameCounter s, ld (m_memory s) 53761)) (call6502_player (slow_tmc 4)) = Some (3, 6) /\
  result (fun s => (m_tmcPerFrameCounter s, ld (m_memory s) 53761)) (call6502_player (slow_tmc 1)) = Some (4, 3).
Proof. vm_compute. repeat split. Qed.

(* the player counts its calls at address 80 *)
Definition fast_sap (fastplay : string) : list Z :=
  line "SAP" ++ line "TYPE B" ++ line (append "FASTPLAY " fastplay) ++ line "INIT 0600" ++ line "PLAYER 0606" ++ [255; 255] ++ block 0x600 [0xA9; 0; 0x8D; 0x0F; 0xD2; 0x60; 0xE6; 0x80; 0x60].
Lemma rate_runs :
  result counter (calls (start 2000 (fast_sap "312")) (frames 2)) = Some 2 /\
  result counter (calls (start 2000 (fast_sap "100")) (frames 2)) = Some 7 /\
  result counter (calls (start 2000 (fast_sap "500")) (frames 2)) = Some 2.
Proof. vm_compute. repeat split. Qed.
Lemma multiples_runs : multiples 100 624 = [0; 100; 200; 300; 400; 500; 600] /\ multiples 500 624 = [0; 500].
Proof. vm_compute. split; reflexivity. Qed.
