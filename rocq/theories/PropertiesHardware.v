(* C60: the hardware registers that a program on the emulated Atari sees.  Nothing else is in this file. *)
From Verif Require Import Base BaseFacts MemModel InfoModel PokeyModel MachineModel NoiseSpec FrameProofs HardwareSpec HardwareProofs MachineWitness CpuWitness.

(* reading gives the register that the address selects, for every address, with the mirrors of the registers *)
Theorem C60_read :
  forall s a, 0 <= a < 65536 -> 0 <= m_cycle s -> pp_extraPokeyMask (m_pokeys s) = 0 \/ pp_extraPokeyMask (m_pokeys s) = 16 ->
  0 <= pk_polyIndex (chip (m_pokeys s) a) -> cpu_peek s a = Ok (input_value s a).
Proof. exact read_ok. Qed.
Print Assumptions C60_read.
Definition late : asap := set_m_nmist NMI_ON_V_BLANK (set_m_cycle 30001 (machine 1536 0 0 0 255 1 0 0 [0xAD; 0x9B; 0xD4])).
Example C60_read_ex : cpu_peek late 0xD014 = Ok 1 /\ cpu_peek late 0xD0F4 = Ok 1 /\ cpu_peek late 0xD41B = Ok 131 /\ cpu_peek late 0xD4FF = Ok 95 /\ cpu_peek late 0xD61F = Ok 0 /\
  cpu_peek late 0xD20F = Ok 255 /\ input_at 0xD2FA = Random /\ input_at 0xD5FA = Ram.
Proof. repeat split; vm_compute; reflexivity. Qed.

(* writing does what the register does that the address selects *)
Theorem C60_write :
  forall s a data, 0 <= a < 65536 -> 0 <= m_cycle s -> pp_extraPokeyMask (m_pokeys s) = 0 \/ pp_extraPokeyMask (m_pokeys s) = 16 ->
  cpu_poke a data s = output_effect a data s.
Proof. exact write_ok. Qed.
Print Assumptions C60_write.
Example C60_write_ex : result m_cycle (cpu_poke 0xD40A 0 late) = Some 30088 /\ result m_nmist (cpu_poke 0xD43F 0 late) = Some NMI_RESET /\
  result (fun s => ld (m_memory s) 0xD61F) (cpu_poke 0xD61F 300 late) = Some 44 /\ result m_consol (cpu_poke 0xD09F 5 late) = Some 5.
Proof. repeat split; vm_compute; reflexivity. Qed.

(* WSYNC waits until cycle 106 of a scanline, less than a scanline *)
Theorem C60_wsync :
  forall s a data, 0 <= a < 65536 -> 0 <= m_cycle s -> output_at (i_covox (m_info s)) a = Wsync ->
  pp_extraPokeyMask (m_pokeys s) = 0 \/ pp_extraPokeyMask (m_pokeys s) = 16 ->
  exists c, cpu_poke a data s = Ok (set_m_cycle c s) /\ m_cycle s <= c < m_cycle s + 114 /\ c mod 114 = 106.
Proof.
  intros s a data Ha C O M. rewrite (write_ok s a data Ha C M). unfold output_effect. rewrite O. eexists. split; [reflexivity|].
  assert (0 <= (106 - m_cycle s) mod 114 < 114) by (apply Z.mod_pos_bound; reflexivity). split; [lia|]. rewrite Z.add_mod_idemp_r by discriminate. replace (m_cycle s + (106 - m_cycle s)) with 106 by lia. reflexivity.
Qed.
Print Assumptions C60_wsync.
Example C60_wsync_ex : output_at (i_covox (m_info late)) 0xD47A = Wsync /\ result m_cycle (cpu_poke 0xD47A 7 late) = Some 30088.
Proof. split; vm_compute; reflexivity. Qed.

(* VCOUNT is half the number of the scanline, from 0 to 130 (NTSC) or 155 (PAL) but for the cycle after the frame *)
Theorem C60_vcount :
  forall s a, 0 <= m_cycle s -> input_at a = Vcount ->
  let F := frame_length (i_ntsc (m_info s)) in
  (m_cycle s < F -> exists line, 114 * line <= m_cycle s < 114 * (line + 1) /\ (line = 2 * input_value s a \/ line = 2 * input_value s a + 1)) /\
  (F < m_cycle s -> input_value s a = 0) /\ 0 <= input_value s a <= (if i_ntsc (m_info s) then 131 else 156).
Proof. exact vcount_ok. Qed.
Print Assumptions C60_vcount.
(* a program that reads VCOUNT: LDA $D49B *)
Example C60_vcount_ex : result m_a (execute late) = Some 131 /\ 114 * 263 <= 30001 + 4 < 114 * 264.
Proof. split; [vm_compute; reflexivity|lia]. Qed.

(* NMIST says if there was a vertical blank since the song was started or NMIRES was last written *)
Theorem C60_nmist :
  forall s0 s frame reset, history s0 s frame reset -> 0 <= m_cycle s < frame_length (i_ntsc (m_info s0)) + vblank ->
  let F := frame_length (i_ntsc (m_info s0)) in
  (nmist_value s = 95 /\ vblank_since F reset (F * frame + m_cycle s)) \/ (nmist_value s = 31 /\ ~ vblank_since F reset (F * frame + m_cycle s)).
Proof. exact nmist_history. Qed.
Print Assumptions C60_nmist.
(* NMIRES after the vertical blank of frame 0: NMIST is clear in frame 1 until its vertical blank *)
Definition later (c : Z) : asap := set_m_cycle c (set_m_nmist NMI_ON_V_BLANK late).
Example C60_nmist_ex : history late (later 28290) 1 30001 /\ nmist_value (later 28290) = 31 /\ nmist_value (later 28291) = 95 /\
  vblank_since 35568 30001 (35568 * 1 + 28291) /\ ~ vblank_since 35568 30001 (35568 * 1 + 28290).
Proof.
  split; [|split; [reflexivity|split; [reflexivity|split; [exists 1; unfold vblank; lia|intros (k & K); unfold vblank in K; lia]]]].
  change (history late (later 28290) (0 + 1) 30001). apply history_frame with (set_m_nmist NMI_RESET late); [|reflexivity|reflexivity].
  change 30001 with (frame_length (i_ntsc (m_info late)) * 0 + m_cycle late).
  apply history_nmires with 0 0xD40F 0; [apply history_start; reflexivity|lia|reflexivity|cbn; unfold vblank; lia|reflexivity].
Qed.
