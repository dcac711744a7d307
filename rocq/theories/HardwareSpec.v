(* The hardware registers that a program on the emulated Atari sees *)
From Verif Require Import Base MemModel InfoModel PokeyModel MachineModel NoiseSpec FrameProofs.

(* the registers that can be read.  GTIA is in page D0 and repeats every 32 bytes, POKEY in page D2 and ANTIC in page D4
   repeat every 16 bytes *)
Inductive input := Ram | Pal | ConsolKeys | Random | Irqst | NoDevice | Vcount | Nmist.
Definition input_at (a : Z) : input :=
  if a / 256 =? 0xd0 then if a mod 32 =? 20 then Pal else if a mod 32 =? 31 then ConsolKeys else Ram
  else if a / 256 =? 0xd2 then
    if a mod 16 =? 10 then Random else if a mod 16 =? 14 then Irqst else if (a mod 16 =? 12) || (a mod 16 =? 15) then NoDevice else Ram
  else if a / 256 =? 0xd4 then if a mod 16 =? 11 then Vcount else if a mod 16 =? 15 then Nmist else Ram
  else Ram.

(* the registers that can be written; [covox] is the page of the COVOX if there is one *)
Inductive output := ToRam | ToPokey | Wsync | Nmires | Covox (channel : Z) | Speaker.
Definition output_at (covox a : Z) : output :=
  if a / 256 =? 0xd2 then ToPokey
  else if (a / 256 =? 0xd4) && (a mod 16 =? 10) then Wsync
  else if (a / 256 =? 0xd4) && (a mod 16 =? 15) then Nmires
  else if ((a / 256 =? 0xd0) || (a / 256 =? 0xd4) || (a / 256 =? 0xd6)) && (256 * (a / 256) =? covox) then Covox (a mod 4)
  else if (a / 256 =? 0xd0) && (a mod 32 =? 31) then Speaker
  else ToRam.

(* the second POKEY, if present, is at D210 *)
Definition second_chip (pp : pokeyPair) (a : Z) : bool := negb (pp_extraPokeyMask pp =? 0) && (16 <=? a mod 32).
Definition chip (pp : pokeyPair) (a : Z) : pokey := if second_chip pp a then pp_extraPokey pp else pp_basePokey pp.

(* a frame has 262 or 312 scanlines of 114 cycles; the vertical blank is flagged in scanline 248 *)
Definition frame_length (ntsc : bool) : Z := 114 * (if ntsc then 262 else 312).
Definition vblank : Z := 28291.

(* bit 6 of NMIST: at time [now] since [reset] there was a vertical blank, where frames of [length] cycles begin at 0 *)
Definition vblank_since (length reset now : Z) : Prop := exists frame, reset <= length * frame + vblank <= now.

(* what is read from an address *)
Definition nmist_value (s : asap) : Z :=
  match m_nmist s with NMI_RESET => 31 | NMI_WAS_V_BLANK => 95 | NMI_ON_V_BLANK => if m_cycle s <? vblank then 31 else 95 end.
Definition input_value (s : asap) (a : Z) : Z :=
  let p := chip (m_pokeys s) a in
  let n := pk_polyIndex p + m_cycle s in
  match input_at a with
  | Ram => ld (m_memory s) a
  | Pal => if i_ntsc (m_info s) then 15 else 1
  | ConsolKeys => 15 - m_consol s mod 16
  | Random => if pk_init p then 255 else if Z.testbit (pk_audctl p) 7 then register 9 5 (n + 1) mod 256 else register 17 5 (n + 9) mod 256
  | Irqst => pk_irqst p
  | NoDevice => 255
  | Vcount => if frame_length (i_ntsc (m_info s)) <? m_cycle s then 0 else m_cycle s / 114 / 2
  | Nmist => nmist_value s
  end.

(* what a write does; the COVOX and the speaker add a change of level to what the left and the right POKEY sound *)
Definition with_chip (pp : pokeyPair) (a : Z) (p : pokey) : pokeyPair := if second_chip pp a then set_pp_extraPokey p pp else set_pp_basePokey p pp.
Definition left_level (delta : Z) (s : asap) : outcome asap :=
  p <- add_external_delta (m_pokeys s) (m_cycle s) delta (pp_basePokey (m_pokeys s)) ;; Ok (set_m_pokeys (set_pp_basePokey p (m_pokeys s)) s).
Definition right_level (delta : Z) (s : asap) : outcome asap :=
  p <- add_external_delta (m_pokeys s) (m_cycle s) delta (pp_extraPokey (m_pokeys s)) ;; Ok (set_m_pokeys (set_pp_extraPokey p (m_pokeys s)) s).
Definition output_effect (a data : Z) (s : asap) : outcome asap :=
  match output_at (i_covox (m_info s)) a with
  | ToRam => Ok (set_m_memory (st (m_memory s) a (data mod 256)) s)
  | ToPokey => '(t, p) <- pokey_poke (m_pokeys s) a data (m_cycle s) (chip (m_pokeys s) a) ;;
      Ok (set_m_nextEventCycle (Z.min t (m_nextEventCycle s)) (set_m_pokeys (with_chip (m_pokeys s) a p) s))
  | Wsync => Ok (set_m_cycle (m_cycle s + (106 - m_cycle s) mod 114) s)
  | Nmires => Ok (set_m_nmist (if m_cycle s <=? vblank then NMI_ON_V_BLANK else NMI_RESET) s)
  | Covox channel => let old := nth (Z.to_nat channel) (m_covox s) 0 in
      if data =? old then Ok s
      else t <- (if (channel =? 1) || (channel =? 2) then right_level ((data - old) * 2 ^ 17) s else left_level ((data - old) * 2 ^ 17) s) ;;
           Ok (set_m_gtiaOrCovoxPlayedThisFrame true (set_m_covox (upd (m_covox s) (Z.to_nat channel) (data mod 256)) t))
  | Speaker => let delta := (Z.b2z (Z.testbit (m_consol s) 3) - Z.b2z (Z.testbit data 3)) * 2 ^ 23 in
      if Bool.eqb (Z.testbit (m_consol s) 3) (Z.testbit data 3) then Ok (set_m_consol data s)
      else t <- left_level delta s ;; t <- right_level delta t ;; Ok (set_m_gtiaOrCovoxPlayedThisFrame true (set_m_consol data t))
  end.

(* what happens to NMIST while a song plays: [frame] counts the frames, [reset] is the time of the last write to NMIRES; a
   program may run past the end of a frame by less than a frame *)
Inductive history (s0 : asap) : asap -> Z -> Z -> Prop :=
| history_start : m_nmist s0 = NMI_ON_V_BLANK -> history s0 s0 0 0                                        (* asap.c:2508 *)
| history_nmires s s' frame reset a data : history s0 s frame reset -> 0 <= a < 65536 -> output_at (i_covox (m_info s)) a = Nmires ->
    0 <= m_cycle s <= frame_length (i_ntsc (m_info s0)) + vblank -> cpu_poke a data s = Ok s' ->
    history s0 s' frame (frame_length (i_ntsc (m_info s0)) * frame + m_cycle s)
| history_frame s s' frame reset : history s0 s frame reset ->
    m_nmist s' = m_nmist (frame_start s) -> m_info s' = m_info s -> history s0 s' (frame + 1) reset        (* asap.c:2406 *)
| history_other s s' frame reset : history s0 s frame reset -> m_nmist s' = m_nmist s -> m_info s' = m_info s -> history s0 s' frame reset.
