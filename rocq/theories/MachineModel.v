(* Model of the machine: class ASAP's hardware side (asap.fu; asap.c:394-412, 2227-2428) and class Cpu6502
   (cpu6502.fu; asap.c:103-115, 5567-6526).

   Simplifications, stated once:
   - The fields of Cpu6502 are fields of the same record as those of ASAP: each C object holds a pointer to
     the other and there is exactly one of each.
   - Uninitialised fields of a fresh object are arbitrary values.
   - Registers, flags and cycle numbers are unbounded integers, as nothing here depends on wrapping. *)
From Verif Require Import Base Loop MemModel InfoModel PokeyModel.

(* asap.c:63-67 enum NmiStatus *)
Inductive nmi_status := NMI_RESET | NMI_ON_V_BLANK | NMI_WAS_V_BLANK.

(* asap.c:103-115 struct Cpu6502 and asap.c:394-412 struct ASAP *)
Record asap := mkAsap {
  m_memory : mem;
  m_cycle : Z;
  m_pc : Z;
  m_a : Z;
  m_x : Z;
  m_y : Z;
  m_s : Z;
  m_nz : Z;
  m_c : Z;
  m_vdi : Z;
  m_nextEventCycle : Z;
  m_nextScanlineCycle : Z;
  m_nmist : nmi_status;
  m_consol : Z;
  m_covox : list Z;
  m_pokeys : pokeyPair;
  m_info : info;
  m_nextPlayerCycle : Z;
  m_tmcPerFrameCounter : Z;
  m_currentSong : Z;
  m_currentDuration : Z;
  m_blocksPlayed : Z;
  m_silenceCycles : Z;
  m_silenceCyclesCounter : Z;
  m_gtiaOrCovoxPlayedThisFrame : bool;
  m_currentSampleRate : Z
}.

Definition set_m_memory (v : mem) (s : asap) : asap := mkAsap v (m_cycle s) (m_pc s) (m_a s) (m_x s) (m_y s) (m_s s) (m_nz s) (m_c s) (m_vdi s) (m_nextEventCycle s) (m_nextScanlineCycle s) (m_nmist s) (m_consol s) (m_covox s) (m_pokeys s) (m_info s) (m_nextPlayerCycle s) (m_tmcPerFrameCounter s) (m_currentSong s) (m_currentDuration s) (m_blocksPlayed s) (m_silenceCycles s) (m_silenceCyclesCounter s) (m_gtiaOrCovoxPlayedThisFrame s) (m_currentSampleRate s).
Definition set_m_cycle (v : Z) (s : asap) : asap := mkAsap (m_memory s) v (m_pc s) (m_a s) (m_x s) (m_y s) (m_s s) (m_nz s) (m_c s) (m_vdi s) (m_nextEventCycle s) (m_nextScanlineCycle s) (m_nmist s) (m_consol s) (m_covox s) (m_pokeys s) (m_info s) (m_nextPlayerCycle s) (m_tmcPerFrameCounter s) (m_currentSong s) (m_currentDuration s) (m_blocksPlayed s) (m_silenceCycles s) (m_silenceCyclesCounter s) (m_gtiaOrCovoxPlayedThisFrame s) (m_currentSampleRate s).
Definition set_m_pc (v : Z) (s : asap) : asap := mkAsap (m_memory s) (m_cycle s) v (m_a s) (m_x s) (m_y s) (m_s s) (m_nz s) (m_c s) (m_vdi s) (m_nextEventCycle s) (m_nextScanlineCycle s) (m_nmist s) (m_consol s) (m_covox s) (m_pokeys s) (m_info s) (m_nextPlayerCycle s) (m_tmcPerFrameCounter s) (m_currentSong s) (m_currentDuration s) (m_blocksPlayed s) (m_silenceCycles s) (m_silenceCyclesCounter s) (m_gtiaOrCovoxPlayedThisFrame s) (m_currentSampleRate s).
Definition set_m_a (v : Z) (s : asap) : asap := mkAsap (m_memory s) (m_cycle s) (m_pc s) v (m_x s) (m_y s) (m_s s) (m_nz s) (m_c s) (m_vdi s) (m_nextEventCycle s) (m_nextScanlineCycle s) (m_nmist s) (m_consol s) (m_covox s) (m_pokeys s) (m_info s) (m_nextPlayerCycle s) (m_tmcPerFrameCounter s) (m_currentSong s) (m_currentDuration s) (m_blocksPlayed s) (m_silenceCycles s) (m_silenceCyclesCounter s) (m_gtiaOrCovoxPlayedThisFrame s) (m_currentSampleRate s).
Definition set_m_x (v : Z) (s : asap) : asap := mkAsap (m_memory s) (m_cycle s) (m_pc s) (m_a s) v (m_y s) (m_s s) (m_nz s) (m_c s) (m_vdi s) (m_nextEventCycle s) (m_nextScanlineCycle s) (m_nmist s) (m_consol s) (m_covox s) (m_pokeys s) (m_info s) (m_nextPlayerCycle s) (m_tmcPerFrameCounter s) (m_currentSong s) (m_currentDuration s) (m_blocksPlayed s) (m_silenceCycles s) (m_silenceCyclesCounter s) (m_gtiaOrCovoxPlayedThisFrame s) (m_currentSampleRate s).
Definition set_m_y (v : Z) (s : asap) : asap := mkAsap (m_memory s) (m_cycle s) (m_pc s) (m_a s) (m_x s) v (m_s s) (m_nz s) (m_c s) (m_vdi s) (m_nextEventCycle s) (m_nextScanlineCycle s) (m_nmist s) (m_consol s) (m_covox s) (m_pokeys s) (m_info s) (m_nextPlayerCycle s) (m_tmcPerFrameCounter s) (m_currentSong s) (m_currentDuration s) (m_blocksPlayed s) (m_silenceCycles s) (m_silenceCyclesCounter s) (m_gtiaOrCovoxPlayedThisFrame s) (m_currentSampleRate s).
Definition set_m_s (v : Z) (s : asap) : asap := mkAsap (m_memory s) (m_cycle s) (m_pc s) (m_a s) (m_x s) (m_y s) v (m_nz s) (m_c s) (m_vdi s) (m_nextEventCycle s) (m_nextScanlineCycle s) (m_nmist s) (m_consol s) (m_covox s) (m_pokeys s) (m_info s) (m_nextPlayerCycle s) (m_tmcPerFrameCounter s) (m_currentSong s) (m_currentDuration s) (m_blocksPlayed s) (m_silenceCycles s) (m_silenceCyclesCounter s) (m_gtiaOrCovoxPlayedThisFrame s) (m_currentSampleRate s).
Definition set_m_nz (v : Z) (s : asap) : asap := mkAsap (m_memory s) (m_cycle s) (m_pc s) (m_a s) (m_x s) (m_y s) (m_s s) v (m_c s) (m_vdi s) (m_nextEventCycle s) (m_nextScanlineCycle s) (m_nmist s) (m_consol s) (m_covox s) (m_pokeys s) (m_info s) (m_nextPlayerCycle s) (m_tmcPerFrameCounter s) (m_currentSong s) (m_currentDuration s) (m_blocksPlayed s) (m_silenceCycles s) (m_silenceCyclesCounter s) (m_gtiaOrCovoxPlayedThisFrame s) (m_currentSampleRate s).
Definition set_m_c (v : Z) (s : asap) : asap := mkAsap (m_memory s) (m_cycle s) (m_pc s) (m_a s) (m_x s) (m_y s) (m_s s) (m_nz s) v (m_vdi s) (m_nextEventCycle s) (m_nextScanlineCycle s) (m_nmist s) (m_consol s) (m_covox s) (m_pokeys s) (m_info s) (m_nextPlayerCycle s) (m_tmcPerFrameCounter s) (m_currentSong s) (m_currentDuration s) (m_blocksPlayed s) (m_silenceCycles s) (m_silenceCyclesCounter s) (m_gtiaOrCovoxPlayedThisFrame s) (m_currentSampleRate s).
Definition set_m_vdi (v : Z) (s : asap) : asap := mkAsap (m_memory s) (m_cycle s) (m_pc s) (m_a s) (m_x s) (m_y s) (m_s s) (m_nz s) (m_c s) v (m_nextEventCycle s) (m_nextScanlineCycle s) (m_nmist s) (m_consol s) (m_covox s) (m_pokeys s) (m_info s) (m_nextPlayerCycle s) (m_tmcPerFrameCounter s) (m_currentSong s) (m_currentDuration s) (m_blocksPlayed s) (m_silenceCycles s) (m_silenceCyclesCounter s) (m_gtiaOrCovoxPlayedThisFrame s) (m_currentSampleRate s).
Definition set_m_nextEventCycle (v : Z) (s : asap) : asap := mkAsap (m_memory s) (m_cycle s) (m_pc s) (m_a s) (m_x s) (m_y s) (m_s s) (m_nz s) (m_c s) (m_vdi s) v (m_nextScanlineCycle s) (m_nmist s) (m_consol s) (m_covox s) (m_pokeys s) (m_info s) (m_nextPlayerCycle s) (m_tmcPerFrameCounter s) (m_currentSong s) (m_currentDuration s) (m_blocksPlayed s) (m_silenceCycles s) (m_silenceCyclesCounter s) (m_gtiaOrCovoxPlayedThisFrame s) (m_currentSampleRate s).
Definition set_m_nextScanlineCycle (v : Z) (s : asap) : asap := mkAsap (m_memory s) (m_cycle s) (m_pc s) (m_a s) (m_x s) (m_y s) (m_s s) (m_nz s) (m_c s) (m_vdi s) (m_nextEventCycle s) v (m_nmist s) (m_consol s) (m_covox s) (m_pokeys s) (m_info s) (m_nextPlayerCycle s) (m_tmcPerFrameCounter s) (m_currentSong s) (m_currentDuration s) (m_blocksPlayed s) (m_silenceCycles s) (m_silenceCyclesCounter s) (m_gtiaOrCovoxPlayedThisFrame s) (m_currentSampleRate s).
Definition set_m_nmist (v : nmi_status) (s : asap) : asap := mkAsap (m_memory s) (m_cycle s) (m_pc s) (m_a s) (m_x s) (m_y s) (m_s s) (m_nz s) (m_c s) (m_vdi s) (m_nextEventCycle s) (m_nextScanlineCycle s) v (m_consol s) (m_covox s) (m_pokeys s) (m_info s) (m_nextPlayerCycle s) (m_tmcPerFrameCounter s) (m_currentSong s) (m_currentDuration s) (m_blocksPlayed s) (m_silenceCycles s) (m_silenceCyclesCounter s) (m_gtiaOrCovoxPlayedThisFrame s) (m_currentSampleRate s).
Definition set_m_consol (v : Z) (s : asap) : asap := mkAsap (m_memory s) (m_cycle s) (m_pc s) (m_a s) (m_x s) (m_y s) (m_s s) (m_nz s) (m_c s) (m_vdi s) (m_nextEventCycle s) (m_nextScanlineCycle s) (m_nmist s) v (m_covox s) (m_pokeys s) (m_info s) (m_nextPlayerCycle s) (m_tmcPerFrameCounter s) (m_currentSong s) (m_currentDuration s) (m_blocksPlayed s) (m_silenceCycles s) (m_silenceCyclesCounter s) (m_gtiaOrCovoxPlayedThisFrame s) (m_currentSampleRate s).
Definition set_m_covox (v : list Z) (s : asap) : asap := mkAsap (m_memory s) (m_cycle s) (m_pc s) (m_a s) (m_x s) (m_y s) (m_s s) (m_nz s) (m_c s) (m_vdi s) (m_nextEventCycle s) (m_nextScanlineCycle s) (m_nmist s) (m_consol s) v (m_pokeys s) (m_info s) (m_nextPlayerCycle s) (m_tmcPerFrameCounter s) (m_currentSong s) (m_currentDuration s) (m_blocksPlayed s) (m_silenceCycles s) (m_silenceCyclesCounter s) (m_gtiaOrCovoxPlayedThisFrame s) (m_currentSampleRate s).
Definition set_m_pokeys (v : pokeyPair) (s : asap) : asap := mkAsap (m_memory s) (m_cycle s) (m_pc s) (m_a s) (m_x s) (m_y s) (m_s s) (m_nz s) (m_c s) (m_vdi s) (m_nextEventCycle s) (m_nextScanlineCycle s) (m_nmist s) (m_consol s) (m_covox s) v (m_info s) (m_nextPlayerCycle s) (m_tmcPerFrameCounter s) (m_currentSong s) (m_currentDuration s) (m_blocksPlayed s) (m_silenceCycles s) (m_silenceCyclesCounter s) (m_gtiaOrCovoxPlayedThisFrame s) (m_currentSampleRate s).
Definition set_m_info (v : info) (s : asap) : asap := mkAsap (m_memory s) (m_cycle s) (m_pc s) (m_a s) (m_x s) (m_y s) (m_s s) (m_nz s) (m_c s) (m_vdi s) (m_nextEventCycle s) (m_nextScanlineCycle s) (m_nmist s) (m_consol s) (m_covox s) (m_pokeys s) v (m_nextPlayerCycle s) (m_tmcPerFrameCounter s) (m_currentSong s) (m_currentDuration s) (m_blocksPlayed s) (m_silenceCycles s) (m_silenceCyclesCounter s) (m_gtiaOrCovoxPlayedThisFrame s) (m_currentSampleRate s).
Definition set_m_nextPlayerCycle (v : Z) (s : asap) : asap := mkAsap (m_memory s) (m_cycle s) (m_pc s) (m_a s) (m_x s) (m_y s) (m_s s) (m_nz s) (m_c s) (m_vdi s) (m_nextEventCycle s) (m_nextScanlineCycle s) (m_nmist s) (m_consol s) (m_covox s) (m_pokeys s) (m_info s) v (m_tmcPerFrameCounter s) (m_currentSong s) (m_currentDuration s) (m_blocksPlayed s) (m_silenceCycles s) (m_silenceCyclesCounter s) (m_gtiaOrCovoxPlayedThisFrame s) (m_currentSampleRate s).
Definition set_m_tmcPerFrameCounter (v : Z) (s : asap) : asap := mkAsap (m_memory s) (m_cycle s) (m_pc s) (m_a s) (m_x s) (m_y s) (m_s s) (m_nz s) (m_c s) (m_vdi s) (m_nextEventCycle s) (m_nextScanlineCycle s) (m_nmist s) (m_consol s) (m_covox s) (m_pokeys s) (m_info s) (m_nextPlayerCycle s) v (m_currentSong s) (m_currentDuration s) (m_blocksPlayed s) (m_silenceCycles s) (m_silenceCyclesCounter s) (m_gtiaOrCovoxPlayedThisFrame s) (m_currentSampleRate s).
Definition set_m_currentSong (v : Z) (s : asap) : asap := mkAsap (m_memory s) (m_cycle s) (m_pc s) (m_a s) (m_x s) (m_y s) (m_s s) (m_nz s) (m_c s) (m_vdi s) (m_nextEventCycle s) (m_nextScanlineCycle s) (m_nmist s) (m_consol s) (m_covox s) (m_pokeys s) (m_info s) (m_nextPlayerCycle s) (m_tmcPerFrameCounter s) v (m_currentDuration s) (m_blocksPlayed s) (m_silenceCycles s) (m_silenceCyclesCounter s) (m_gtiaOrCovoxPlayedThisFrame s) (m_currentSampleRate s).
Definition set_m_currentDuration (v : Z) (s : asap) : asap := mkAsap (m_memory s) (m_cycle s) (m_pc s) (m_a s) (m_x s) (m_y s) (m_s s) (m_nz s) (m_c s) (m_vdi s) (m_nextEventCycle s) (m_nextScanlineCycle s) (m_nmist s) (m_consol s) (m_covox s) (m_pokeys s) (m_info s) (m_nextPlayerCycle s) (m_tmcPerFrameCounter s) (m_currentSong s) v (m_blocksPlayed s) (m_silenceCycles s) (m_silenceCyclesCounter s) (m_gtiaOrCovoxPlayedThisFrame s) (m_currentSampleRate s).
Definition set_m_blocksPlayed (v : Z) (s : asap) : asap := mkAsap (m_memory s) (m_cycle s) (m_pc s) (m_a s) (m_x s) (m_y s) (m_s s) (m_nz s) (m_c s) (m_vdi s) (m_nextEventCycle s) (m_nextScanlineCycle s) (m_nmist s) (m_consol s) (m_covox s) (m_pokeys s) (m_info s) (m_nextPlayerCycle s) (m_tmcPerFrameCounter s) (m_currentSong s) (m_currentDuration s) v (m_silenceCycles s) (m_silenceCyclesCounter s) (m_gtiaOrCovoxPlayedThisFrame s) (m_currentSampleRate s).
Definition set_m_silenceCycles (v : Z) (s : asap) : asap := mkAsap (m_memory s) (m_cycle s) (m_pc s) (m_a s) (m_x s) (m_y s) (m_s s) (m_nz s) (m_c s) (m_vdi s) (m_nextEventCycle s) (m_nextScanlineCycle s) (m_nmist s) (m_consol s) (m_covox s) (m_pokeys s) (m_info s) (m_nextPlayerCycle s) (m_tmcPerFrameCounter s) (m_currentSong s) (m_currentDuration s) (m_blocksPlayed s) v (m_silenceCyclesCounter s) (m_gtiaOrCovoxPlayedThisFrame s) (m_currentSampleRate s).
Definition set_m_silenceCyclesCounter (v : Z) (s : asap) : asap := mkAsap (m_memory s) (m_cycle s) (m_pc s) (m_a s) (m_x s) (m_y s) (m_s s) (m_nz s) (m_c s) (m_vdi s) (m_nextEventCycle s) (m_nextScanlineCycle s) (m_nmist s) (m_consol s) (m_covox s) (m_pokeys s) (m_info s) (m_nextPlayerCycle s) (m_tmcPerFrameCounter s) (m_currentSong s) (m_currentDuration s) (m_blocksPlayed s) (m_silenceCycles s) v (m_gtiaOrCovoxPlayedThisFrame s) (m_currentSampleRate s).
Definition set_m_gtiaOrCovoxPlayedThisFrame (v : bool) (s : asap) : asap := mkAsap (m_memory s) (m_cycle s) (m_pc s) (m_a s) (m_x s) (m_y s) (m_s s) (m_nz s) (m_c s) (m_vdi s) (m_nextEventCycle s) (m_nextScanlineCycle s) (m_nmist s) (m_consol s) (m_covox s) (m_pokeys s) (m_info s) (m_nextPlayerCycle s) (m_tmcPerFrameCounter s) (m_currentSong s) (m_currentDuration s) (m_blocksPlayed s) (m_silenceCycles s) (m_silenceCyclesCounter s) v (m_currentSampleRate s).
Definition set_m_currentSampleRate (v : Z) (s : asap) : asap := mkAsap (m_memory s) (m_cycle s) (m_pc s) (m_a s) (m_x s) (m_y s) (m_s s) (m_nz s) (m_c s) (m_vdi s) (m_nextEventCycle s) (m_nextScanlineCycle s) (m_nmist s) (m_consol s) (m_covox s) (m_pokeys s) (m_info s) (m_nextPlayerCycle s) (m_tmcPerFrameCounter s) (m_currentSong s) (m_currentDuration s) (m_blocksPlayed s) (m_silenceCycles s) (m_silenceCyclesCounter s) (m_gtiaOrCovoxPlayedThisFrame s) v.

(* memory[addr] and memory[addr] = (uint8_t) data *)
Definition mem_rd (s : asap) (addr : Z) : outcome Z := rd (m_memory s) addr.
Definition mem_wr (addr data : Z) (s : asap) : outcome asap :=
  m <- wr (m_memory s) addr data ;; Ok (set_m_memory m s).

(* ---- hardware (class ASAP) ---- *)

(* the number of cycles of a frame, asap.c:2248 and 2407 *)
Definition frame_cycles (i : info) : Z := if i_ntsc i then 29868 else 35568.

(* asap.c:2227-2264 ASAP_PeekHardware *)
Definition peek_hardware (s : asap) (addr : Z) : outcome Z :=
  match Z.land addr 65311 with
  | 53268 => Ok (if i_ntsc (m_info s) then 15 else 1)
  | 53279 => Ok (Z.land (Z.lnot (m_consol s)) 15)
  | 53770 | 53786 | 53774 | 53790 => pair_peek addr (m_cycle s) (m_pokeys s)
  | 53772 | 53788 | 53775 | 53791 => Ok 255
  | 54283 | 54299 =>
    Ok (if frame_cycles (m_info s) <? m_cycle s then 0 else Z.quot (m_cycle s) 228)
  | 54287 | 54303 =>
    Ok (match m_nmist s with
        | NMI_RESET => 31
        | NMI_WAS_V_BLANK => 95
        | NMI_ON_V_BLANK => if m_cycle s <? 28291 then 31 else 95
        end)
  | _ => mem_rd s addr
  end.

(* asap.c:2266-2306 ASAP_PokeHardware *)
Definition poke_hardware (addr data : Z) (s : asap) : outcome asap :=
  if Z.shiftr addr 8 =? 210 then
    '(t, pp) <- pair_poke addr data (m_cycle s) (m_pokeys s) ;;
    let s := set_m_pokeys pp s in
    Ok (if t <? m_nextEventCycle s then set_m_nextEventCycle t s else s)
  else if Z.land addr 65295 =? 54282 then
    let x := Z.rem (m_cycle s) 114 in
    Ok (set_m_cycle (m_cycle s + (if x <=? 106 then 106 else 220) - x) s)
  else if Z.land addr 65295 =? 54287 then
    Ok (set_m_nmist (if m_cycle s <? 28292 then NMI_ON_V_BLANK else NMI_RESET) s)
  else if Z.land addr 65280 =? i_covox (m_info s) then
    let addr := Z.land addr 3 in
    let delta := data - at_ (m_covox s) addr in
    if delta =? 0 then Ok s
    else
      let pp := m_pokeys s in
      pp <- (if (addr =? 0) || (addr =? 3)
             then p <- add_external_delta pp (m_cycle s) (Z.shiftl delta 17) (pp_basePokey pp) ;; Ok (set_pp_basePokey p pp)
             else p <- add_external_delta pp (m_cycle s) (Z.shiftl delta 17) (pp_extraPokey pp) ;; Ok (set_pp_extraPokey p pp)) ;;
      Ok (set_m_gtiaOrCovoxPlayedThisFrame true
            (set_m_covox (upd (m_covox s) (Z.to_nat addr) (u8 data)) (set_m_pokeys pp s)))
  else if Z.land addr 65311 =? 53279 then
    let delta := Z.shiftl (Z.land (m_consol s) 8 - Z.land data 8) 20 in
    s <- (if delta =? 0 then Ok s
          else
            let pp := m_pokeys s in
            p <- add_external_delta pp (m_cycle s) delta (pp_basePokey pp) ;;
            let pp := set_pp_basePokey p pp in
            p <- add_external_delta pp (m_cycle s) delta (pp_extraPokey pp) ;;
            Ok (set_m_gtiaOrCovoxPlayedThisFrame true (set_m_pokeys (set_pp_extraPokey p pp) s))) ;;
    Ok (set_m_consol data s)
  else mem_wr addr data s.

(* ---- class Cpu6502 ---- *)

(* asap.c:5567-5573 Cpu6502_Reset *)
Definition cpu_reset (s : asap) : asap := set_m_vdi 0 (set_m_c 0 (set_m_nz 0 (set_m_cycle 0 s))).

(* asap.c:5575-5581 Cpu6502_Peek *)
Definition cpu_peek (s : asap) (addr : Z) : outcome Z :=
  if Z.land addr 63744 =? 53248 then peek_hardware s addr else mem_rd s addr.

(* asap.c:5583-5589 Cpu6502_Poke *)
Definition cpu_poke (addr data : Z) (s : asap) : outcome asap :=
  if Z.land addr 63744 =? 53248 then poke_hardware addr data s else mem_wr addr data s.

(* asap.c:5591-5601 Cpu6502_PeekReadModifyWrite *)
Definition peek_rmw (addr : Z) (s : asap) : outcome (Z * asap) :=
  if Z.shiftr addr 8 =? 210 then
    let s := set_m_cycle (m_cycle s - 1) s in
    data <- peek_hardware s addr ;;
    s <- poke_hardware addr data s ;;
    Ok (data, set_m_cycle (m_cycle s + 1) s)
  else data <- mem_rd s addr ;; Ok (data, s).

(* asap.c:5603-5608 Cpu6502_Pull *)
Definition pull (s : asap) : outcome (Z * asap) :=
  let sp := Z.land (m_s s + 1) 255 in
  v <- mem_rd s (256 + sp) ;; Ok (v, set_m_s sp s).

(* asap.c:5610-5616 Cpu6502_PullFlags *)
Definition pull_flags (s : asap) : outcome asap :=
  '(data, s) <- pull s ;;
  Ok (set_m_vdi (Z.land data 76) (set_m_c (Z.land data 1)
       (set_m_nz (Z.shiftl (Z.land data 128) 1 + Z.land (Z.lnot data) 2) s))).

(* asap.c:5618-5623 Cpu6502_Push *)
Definition push (data : Z) (s : asap) : outcome asap :=
  let sp := m_s s in
  s <- mem_wr (256 + sp) data s ;; Ok (set_m_s (Z.land (sp - 1) 255) s).

(* asap.c:5625-5629 Cpu6502_PushPc *)
Definition push_pc (s : asap) : outcome asap :=
  s <- push (Z.shiftr (m_pc s) 8) s ;; push (Z.land (m_pc s) 255) s.

(* asap.c:5631-5638 Cpu6502_PushFlags *)
Definition push_flags (b : Z) (s : asap) : outcome asap :=
  let nz := m_nz s in
  let b := b + (Z.land (Z.lor nz (Z.shiftr nz 1)) 128 + m_vdi s + m_c s) in
  push (if Z.land nz 255 =? 0 then b + 2 else b) s.

(* asap.c:5640-5668 Cpu6502_AddWithCarry *)
Definition add_overflow (data a tmp : Z) : Z :=
  Z.land (Z.shiftr (Z.land (Z.lnot (Z.lxor data a)) (Z.lxor a tmp)) 1) 64.
Definition add_with_carry (data : Z) (s : asap) : asap :=
  let a := m_a s in
  let vdi := m_vdi s in
  let tmp := a + data + m_c s in
  let nz := Z.land tmp 255 in
  if Z.land vdi 8 =? 0 then
    set_m_a nz (set_m_c (Z.shiftr tmp 8) (set_m_vdi (Z.land vdi 12 + add_overflow data a tmp) (set_m_nz nz s)))
  else
    let al := Z.land a 15 + Z.land data 15 + m_c s in
    let tmp' := if 10 <=? al then tmp + (if al <? 26 then 6 else -10) else tmp in
    let nz' := if (10 <=? al) && negb (nz =? 0) then Z.land tmp' 128 + 1 else nz in
    let s := set_m_vdi (Z.land vdi 12 + add_overflow data a tmp') (set_m_nz nz' s) in
    if 160 <=? tmp' then set_m_a (Z.land (tmp' - 160) 255) (set_m_c 1 s)
    else set_m_a tmp' (set_m_c 0 s).

(* asap.c:5670-5686 Cpu6502_SubtractWithCarry *)
Definition subtract_with_carry (data : Z) (s : asap) : asap :=
  let a := m_a s in
  let vdi := m_vdi s in
  let borrow := m_c s - 1 in
  let tmp := a - data + borrow in
  let al := Z.land a 15 - Z.land data 15 + borrow in
  let c := if 0 <=? tmp then 1 else 0 in
  let a1 := Z.land tmp 255 in
  let s := set_m_nz a1 (set_m_c c
             (set_m_vdi (Z.land vdi 12 + Z.land (Z.shiftr (Z.land (Z.lxor data a) (Z.lxor a tmp)) 1) 64) s)) in
  if Z.land vdi 8 =? 0 then set_m_a a1 s
  else
    let a2 := if al <? 0 then a1 + (if al <? -10 then 10 else -6) else a1 in
    set_m_a (if c =? 0 then Z.land (a2 - 96) 255 else a2) s.

(* asap.c:5688-5736 the read-modify-write helpers: the value returned and the new state *)
Definition arithmetic_shift_left (addr : Z) (s : asap) : outcome (Z * asap) :=
  '(data, s) <- peek_rmw addr s ;;
  let s := set_m_c (Z.shiftr data 7) s in
  let data := Z.land (Z.shiftl data 1) 255 in
  s <- cpu_poke addr data s ;; Ok (data, s).
Definition rotate_left (addr : Z) (s : asap) : outcome (Z * asap) :=
  let c := m_c s in
  '(data, s) <- peek_rmw addr s ;;
  let data := Z.shiftl data 1 + c in
  let s := set_m_c (Z.shiftr data 8) s in
  let data := Z.land data 255 in
  s <- cpu_poke addr data s ;; Ok (data, s).
Definition logical_shift_right (addr : Z) (s : asap) : outcome (Z * asap) :=
  '(data, s) <- peek_rmw addr s ;;
  let s := set_m_c (Z.land data 1) s in
  let data := Z.shiftr data 1 in
  s <- cpu_poke addr data s ;; Ok (data, s).
Definition rotate_right (addr : Z) (s : asap) : outcome (Z * asap) :=
  let c := m_c s in
  '(data, s) <- peek_rmw addr s ;;
  let data := Z.shiftl c 8 + data in
  let s := set_m_c (Z.land data 1) s in
  let data := Z.shiftr data 1 in
  s <- cpu_poke addr data s ;; Ok (data, s).
Definition decrement (addr : Z) (s : asap) : outcome (Z * asap) :=
  '(data, s) <- peek_rmw addr s ;;
  let data := Z.land (data - 1) 255 in
  s <- cpu_poke addr data s ;; Ok (data, s).
Definition increment (addr : Z) (s : asap) : outcome (Z * asap) :=
  '(data, s) <- peek_rmw addr s ;;
  let data := Z.land (data + 1) 255 in
  s <- cpu_poke addr data s ;; Ok (data, s).

(* asap.c:5738-5744 Cpu6502_ExecuteIrq *)
Definition execute_irq (b : Z) (s : asap) : outcome asap :=
  s <- push_pc s ;;
  s <- push_flags b s ;;
  let s := set_m_vdi (Z.lor (m_vdi s) 4) s in
  lo <- mem_rd s 65534 ;;
  hi <- mem_rd s 65535 ;;
  Ok (set_m_pc (lo + Z.shiftl hi 8) s).

(* asap.c:2379-2382 ASAP_IsIrq *)
Definition is_irq (s : asap) : bool := negb (pk_irqst (pp_basePokey (m_pokeys s)) =? 255).

(* asap.c:5746-5752 Cpu6502_CheckIrq *)
Definition check_irq (s : asap) : outcome asap :=
  if (Z.land (m_vdi s) 4 =? 0) && is_irq s then execute_irq 32 (set_m_cycle (m_cycle s + 7) s) else Ok s.

(* memory[pc++] *)
Definition fetch (s : asap) : outcome (Z * asap) :=
  v <- mem_rd s (m_pc s) ;; Ok (v, set_m_pc (m_pc s + 1) s).

(* asap.c:5754-5763 Cpu6502_Shx *)
Definition shx (addr data : Z) (s : asap) : outcome asap :=
  '(lo, s) <- fetch s ;;
  let addr := addr + lo in
  '(hi, s) <- fetch s ;;
  let data := Z.land data (hi + 1) in
  let hi := if 256 <=? addr then data - 1 else hi in
  cpu_poke (addr + Z.shiftl hi 8) data s.

(* asap.c:2308-2315 ASAP_Call6502 *)
Definition call6502 (addr : Z) (s : asap) : asap :=
  set_m_pc 53760 (set_m_memory (st_list (m_memory s) 53760 [32; u8 addr; u8 (Z.shiftr addr 8); 210]) s).

(* asap.c:2317-2377 ASAP_Call6502Player, the type SAP_D part *)
Definition call_player_d (player : Z) (s : asap) : outcome asap :=
  if 0 <=? player then
    s <- push_pc s ;;
    Ok (set_m_pc 53760
         (set_m_memory (st_list (m_memory s) 53760
            [8; 72; 138; 72; 152; 72; 32; u8 player; u8 (Z.shiftr player 8); 104; 168; 104; 170; 104; 64]) s))
  else Ok s.

(* the type SAP_S part *)
Definition call_player_s (s : asap) : asap :=
  let i := ld (m_memory s) 69 - 1 in
  let m := st (m_memory s) 69 (u8 i) in
  let m := if i =? 0 then st m 45179 (u8 (ld m 45179 + 1)) else m in
  set_m_memory m s.

(* the whole function *)
Definition call6502_player (s : asap) : outcome asap :=
  let player := i_player (m_info s) in
  match i_type (m_info s) with
  | SAP_B => Ok (call6502 player s)
  | SAP_C | CMC | CM3 | CMR | CMS => Ok (call6502 (player + 6) s)
  | SAP_D => call_player_d player s
  | SAP_S => Ok (call_player_s s)
  | DLT => Ok (call6502 (player + 259) s)
  | MPT | RMT | TM2 | FC => Ok (call6502 (player + 3) s)
  | TMC =>
    let n := m_tmcPerFrameCounter s - 1 in
    let s := set_m_tmcPerFrameCounter n s in
    if n <=? 0 then
      v <- mem_rd s (i_music (m_info s) + 31) ;;
      Ok (call6502 (player + 3) (set_m_tmcPerFrameCounter v s))
    else Ok (call6502 (player + 6) s)
  end.

(* asap.c:2384-2400 ASAP_HandleEvent *)
Definition handle_event (s : asap) : outcome asap :=
  s <- (if m_nextScanlineCycle s <=? m_cycle s then
          let s := if m_cycle s - m_nextScanlineCycle s <? 50 then set_m_cycle (m_cycle s + 9) s else s in
          let s := set_m_nextScanlineCycle (m_nextScanlineCycle s + 114) s in
          if m_nextPlayerCycle s <=? m_cycle s then
            s <- call6502_player s ;;
            Ok (set_m_nextPlayerCycle (m_nextPlayerCycle s + 114 * i_fastplay (m_info s)) s)
          else Ok s
        else Ok s) ;;
  let cycle := m_cycle s in
  let pp := m_pokeys s in
  let '(next, base) := pokey_check_irq cycle (m_nextScanlineCycle s) (pp_basePokey pp) in
  let '(next, extra) := pokey_check_irq cycle next (pp_extraPokey pp) in
  Ok (set_m_nextEventCycle next (set_m_pokeys (set_pp_extraPokey extra (set_pp_basePokey base pp)) s)).

(* asap.c:5773-5788 OPCODE_CYCLES, the table of base cycles, indexed by opcode *)
Definition opcode_cycles : list Z :=
  [7; 6; 2; 8; 3; 3; 5; 5; 3; 2; 2; 2; 4; 4; 6; 6;
   2; 5; 2; 8; 4; 4; 6; 6; 2; 4; 2; 7; 4; 4; 7; 7;
   6; 6; 2; 8; 3; 3; 5; 5; 4; 2; 2; 2; 4; 4; 6; 6;
   2; 5; 2; 8; 4; 4; 6; 6; 2; 4; 2; 7; 4; 4; 7; 7;
   6; 6; 2; 8; 3; 3; 5; 5; 3; 2; 2; 2; 3; 4; 6; 6;
   2; 5; 2; 8; 4; 4; 6; 6; 2; 4; 2; 7; 4; 4; 7; 7;
   6; 6; 2; 8; 3; 3; 5; 5; 4; 2; 2; 2; 5; 4; 6; 6;
   2; 5; 2; 8; 4; 4; 6; 6; 2; 4; 2; 7; 4; 4; 7; 7;
   2; 6; 2; 6; 3; 3; 3; 3; 2; 2; 2; 2; 4; 4; 4; 4;
   2; 6; 2; 6; 4; 4; 4; 4; 2; 5; 2; 5; 5; 5; 5; 5;
   2; 6; 2; 6; 3; 3; 3; 3; 2; 2; 2; 2; 4; 4; 4; 4;
   2; 5; 2; 5; 4; 4; 4; 4; 2; 4; 2; 4; 4; 4; 4; 4;
   2; 6; 2; 8; 3; 3; 5; 5; 2; 2; 2; 2; 4; 4; 6; 6;
   2; 5; 2; 8; 4; 4; 6; 6; 2; 4; 2; 7; 4; 4; 7; 7;
   2; 6; 2; 8; 3; 3; 5; 5; 2; 2; 2; 2; 4; 4; 6; 6;
   2; 5; 2; 8; 4; 4; 6; 6; 2; 4; 2; 7; 4; 4; 7; 7].

(* asap.c:5791-6265, the first switch (data): which case an opcode selects *)
Inductive mode :=
| M_brk | M_indx | M_cim | M_skip1 | M_zp | M_php | M_imm | M_asl_a | M_anc | M_skip2
| M_abs | M_bpl | M_indy_read | M_indy | M_zpx | M_clc | M_absy_read | M_absy | M_nop_absx | M_absx_read
| M_absx | M_jsr | M_plp | M_rol_a | M_bmi | M_sec | M_rti | M_pha | M_lsr_a | M_asr
| M_jmp | M_bvc | M_cli | M_rts | M_pla | M_ror_a | M_arr | M_bvs | M_sei | M_dey
| M_txa | M_ane | M_bcc | M_sha_indy | M_zpy | M_tya | M_txs | M_shs | M_shy | M_shx
| M_sha_absy | M_tay | M_tax | M_anx | M_bcs | M_clv | M_tsx | M_iny | M_dex | M_sbx
| M_bne | M_cld | M_inx | M_nop | M_beq | M_sed | M_abort.

Definition first_switch (data : Z) : mode :=
  match data with
  | 0 => M_brk (* 5792 *)
  | 1 | 3 | 33 | 35 | 65 | 67 | 97 | 99 | 129 | 131 | 161 | 163 | 193 | 195 | 225 | 227 => M_indx (* 5796 *)
  | 2 | 18 | 34 | 50 | 66 | 82 | 98 | 114 | 146 | 178 | 210 | 242 => M_cim (* 5815 *)
  | 4 | 68 | 100 | 20 | 52 | 84 | 116 | 212 | 244 | 128 | 130 | 137 | 194 | 226 => M_skip1 (* 5830 *)
  | 5 | 6 | 7 | 36 | 37 | 38 | 39 | 69 | 70 | 71 | 101 | 102 | 103 | 132 | 133 | 134 | 135 | 164 | 165 | 166 | 167 | 196 | 197 | 198
    | 199 | 228 | 229 | 230 | 231 => M_zp (* 5846 *)
  | 8 => M_php (* 5877 *)
  | 9 | 41 | 73 | 105 | 160 | 162 | 169 | 192 | 201 | 224 | 233 | 235 => M_imm (* 5880 *)
  | 10 => M_asl_a (* 5894 *)
  | 11 | 43 => M_anc (* 5898 *)
  | 12 => M_skip2 (* 5903 *)
  | 13 | 14 | 15 | 44 | 45 | 46 | 47 | 77 | 78 | 79 | 108 | 109 | 110 | 111 | 140 | 141 | 142 | 143 | 172 | 173 | 174 | 175 | 204 | 205
    | 206 | 207 | 236 | 237 | 238 | 239 => M_abs (* 5906 *)
  | 16 => M_bpl (* 5939 *)
  | 17 | 49 | 81 | 113 | 177 | 179 | 209 | 241 => M_indy_read (* 5944 *)
  | 19 | 51 | 83 | 115 | 145 | 211 | 243 => M_indy (* 5959 *)
  | 21 | 22 | 23 | 53 | 54 | 55 | 85 | 86 | 87 | 117 | 118 | 119 | 148 | 149 | 180 | 181 | 213 | 214 | 215 | 245 | 246 | 247 => M_zpx (* 5969 *)
  | 24 => M_clc (* 5993 *)
  | 25 | 57 | 89 | 121 | 185 | 187 | 190 | 191 | 217 | 249 => M_absy_read (* 5996 *)
  | 27 | 59 | 91 | 123 | 153 | 219 | 251 => M_absy (* 6011 *)
  | 28 | 60 | 92 | 124 | 220 | 252 => M_nop_absx (* 6021 *)
  | 29 | 61 | 93 | 125 | 188 | 189 | 221 | 253 => M_absx_read (* 6031 *)
  | 30 | 31 | 62 | 63 | 94 | 95 | 126 | 127 | 157 | 222 | 223 | 254 | 255 => M_absx (* 6044 *)
  | 32 => M_jsr (* 6060 *)
  | 40 => M_plp (* 6065 *)
  | 42 => M_rol_a (* 6069 *)
  | 48 => M_bmi (* 6074 *)
  | 56 => M_sec (* 6079 *)
  | 64 => M_rti (* 6082 *)
  | 72 => M_pha (* 6088 *)
  | 74 => M_lsr_a (* 6091 *)
  | 75 => M_asr (* 6095 *)
  | 76 => M_jmp (* 6100 *)
  | 80 => M_bvc (* 6104 *)
  | 88 => M_cli (* 6109 *)
  | 96 => M_rts (* 6113 *)
  | 104 => M_pla (* 6117 *)
  | 106 => M_ror_a (* 6120 *)
  | 107 => M_arr (* 6125 *)
  | 112 => M_bvs (* 6142 *)
  | 120 => M_sei (* 6147 *)
  | 136 => M_dey (* 6150 *)
  | 138 => M_txa (* 6153 *)
  | 139 => M_ane (* 6156 *)
  | 144 => M_bcc (* 6161 *)
  | 147 => M_sha_indy (* 6166 *)
  | 150 | 151 | 182 | 183 => M_zpy (* 6179 *)
  | 152 => M_tya (* 6185 *)
  | 154 => M_txs (* 6188 *)
  | 155 => M_shs (* 6191 *)
  | 156 => M_shy (* 6195 *)
  | 158 => M_shx (* 6198 *)
  | 159 => M_sha_absy (* 6201 *)
  | 168 => M_tay (* 6204 *)
  | 170 => M_tax (* 6207 *)
  | 171 => M_anx (* 6210 *)
  | 176 => M_bcs (* 6213 *)
  | 184 => M_clv (* 6218 *)
  | 186 => M_tsx (* 6221 *)
  | 200 => M_iny (* 6224 *)
  | 202 => M_dex (* 6227 *)
  | 203 => M_sbx (* 6230 *)
  | 208 => M_bne (* 6236 *)
  | 216 => M_cld (* 6241 *)
  | 232 => M_inx (* 6244 *)
  | 234 | 26 | 58 | 90 | 122 | 218 | 250 => M_nop (* 6247 *)
  | 240 => M_beq (* 6255 *)
  | 248 => M_sed (* 6260 *)
  | _ => M_abort
  end.

(* asap.c:6266-6524, the second switch (data): which case an opcode selects *)
Inductive operation :=
| O_ora | O_slo | O_asl | O_branch | O_and | O_rla | O_bit | O_rol | O_eor | O_sre
| O_lsr | O_adc | O_rra | O_ror | O_jmp_ind | O_sta | O_sax | O_sty | O_stx | O_ldy
| O_lda | O_ldx | O_lax | O_las | O_cpy | O_cmp | O_dcp | O_dec | O_cpx | O_sbc
| O_isb | O_inc | O_abort.

Definition second_switch (data : Z) : operation :=
  match data with
  | 1 | 5 | 9 | 13 | 17 | 21 | 25 | 29 => O_ora (* 6267 *)
  | 3 | 7 | 15 | 19 | 23 | 27 | 31 => O_slo (* 6277 *)
  | 6 | 14 | 22 | 30 => O_asl (* 6286 *)
  | 16 | 48 | 80 | 112 | 144 | 176 | 208 | 240 => O_branch (* 6292 *)
  | 33 | 37 | 41 | 45 | 49 | 53 | 57 | 61 => O_and (* 6306 *)
  | 35 | 39 | 47 | 51 | 55 | 59 | 63 => O_rla (* 6316 *)
  | 36 | 44 => O_bit (* 6325 *)
  | 38 | 46 | 54 | 62 => O_rol (* 6331 *)
  | 65 | 69 | 73 | 77 | 81 | 85 | 89 | 93 => O_eor (* 6337 *)
  | 67 | 71 | 79 | 83 | 87 | 91 | 95 => O_sre (* 6347 *)
  | 70 | 78 | 86 | 94 => O_lsr (* 6356 *)
  | 97 | 101 | 105 | 109 | 113 | 117 | 121 | 125 => O_adc (* 6362 *)
  | 99 | 103 | 111 | 115 | 119 | 123 | 127 => O_rra (* 6372 *)
  | 102 | 110 | 118 | 126 => O_ror (* 6381 *)
  | 108 => O_jmp_ind (* 6387 *)
  | 129 | 133 | 141 | 145 | 149 | 153 | 157 => O_sta (* 6393 *)
  | 131 | 135 | 143 | 151 => O_sax (* 6402 *)
  | 132 | 140 | 148 => O_sty (* 6408 *)
  | 134 | 142 | 150 => O_stx (* 6413 *)
  | 160 | 164 | 172 | 180 | 188 => O_ldy (* 6418 *)
  | 161 | 165 | 169 | 173 | 177 | 181 | 185 | 189 => O_lda (* 6425 *)
  | 162 | 166 | 174 | 182 | 190 => O_ldx (* 6435 *)
  | 163 | 167 | 175 | 179 | 183 | 191 => O_lax (* 6442 *)
  | 187 => O_las (* 6450 *)
  | 192 | 196 | 204 => O_cpy (* 6453 *)
  | 193 | 197 | 201 | 205 | 209 | 213 | 217 | 221 => O_cmp (* 6460 *)
  | 195 | 199 | 207 | 211 | 215 | 219 | 223 => O_dcp (* 6472 *)
  | 198 | 206 | 214 | 222 => O_dec (* 6483 *)
  | 224 | 228 | 236 => O_cpx (* 6489 *)
  | 225 | 229 | 233 | 235 | 237 | 241 | 245 | 249 | 253 => O_sbc (* 6496 *)
  | 227 | 231 | 239 | 243 | 247 | 251 | 255 => O_isb (* 6507 *)
  | 230 | 238 | 246 | 254 => O_inc (* 6516 *)
  | _ => O_abort
  end.

(* What the first switch does: [Done] is "continue", [Operand addr] is "break" with that addr *)
Inductive first_result := Done (s : asap) | Operand (addr : Z) (s : asap).

Definition done (s : asap) : outcome first_result := Ok (Done s).

(* nz = a = v and the like *)
Definition load_a (v : Z) (s : asap) : asap := set_m_nz v (set_m_a v s).
Definition load_x (v : Z) (s : asap) : asap := set_m_nz v (set_m_x v s).
Definition load_y (v : Z) (s : asap) : asap := set_m_nz v (set_m_y v s).
Definition skip (n : Z) (s : asap) : asap := set_m_pc (m_pc s + n) s.
Definition add_cycles (n : Z) (s : asap) : asap := set_m_cycle (m_cycle s + n) s.

(* a conditional branch: taken is "break" with addr still 0 *)
Definition branch_if (b : bool) (s : asap) : outcome first_result :=
  if b then Ok (Operand 0 s) else done (skip 1 s).

(* memory[zp] + (memory[(zp + 1) & 255] << 8) *)
Definition zp_word (s : asap) (zp : Z) : outcome Z :=
  lo <- mem_rd s zp ;; hi <- mem_rd s (Z.land (zp + 1) 255) ;; Ok (lo + Z.shiftl hi 8).

(* lo = memory[pc++]; hi = memory[pc++] << 8 *)
Definition fetch_word (s : asap) : outcome (Z * Z * asap) :=
  '(lo, s) <- fetch s ;; '(hi, s) <- fetch s ;; Ok (lo, Z.shiftl hi 8, s).

(* absolute indexed addressing; one more cycle on a page crossing for the reading opcodes *)
Definition abs_indexed (index : asap -> Z) (page_cycle : bool) (s : asap) : outcome first_result :=
  '(lo, s) <- fetch s ;;
  let addr := lo + index s in
  let s := if page_cycle && (256 <=? addr) then add_cycles 1 s else s in
  '(hi, s) <- fetch s ;;
  Ok (Operand (Z.land (addr + Z.shiftl hi 8) 65535) s).

(* asap.c:5791-6265, the bodies of the first switch *)
Definition run_mode (m : mode) (s : asap) : outcome first_result :=
  match m with
  | M_brk => s <- execute_irq 48 (skip 1 s) ;; done s
  | M_indx =>
    '(v, s) <- fetch s ;;
    addr <- zp_word s (Z.land (v + m_x s) 255) ;; Ok (Operand addr s)
  | M_cim => done (set_m_cycle (m_nextEventCycle s) (skip (-1) s))
  | M_skip1 => done (skip 1 s)
  | M_zp => '(addr, s) <- fetch s ;; Ok (Operand addr s)
  | M_php => s <- push_flags 48 s ;; done s
  | M_imm => Ok (Operand (m_pc s) (skip 1 s))
  | M_asl_a => done (load_a (Z.land (Z.shiftl (m_a s) 1) 255) (set_m_c (Z.shiftr (m_a s) 7) s))
  | M_anc =>
    '(v, s) <- fetch s ;;
    let s := load_a (Z.land (m_a s) v) s in done (set_m_c (Z.shiftr (m_nz s) 7) s)
  | M_skip2 => done (skip 2 s)
  | M_abs => '(lo, hi, s) <- fetch_word s ;; Ok (Operand (lo + hi) s)
  | M_bpl => branch_if (m_nz s <? 128) s
  | M_indy_read =>
    '(zp, s) <- fetch s ;;
    lo <- mem_rd s zp ;;
    let addr := lo + m_y s in
    let s := if 256 <=? addr then add_cycles 1 s else s in
    hi <- mem_rd s (Z.land (zp + 1) 255) ;;
    Ok (Operand (Z.land (addr + Z.shiftl hi 8) 65535) s)
  | M_indy =>
    '(zp, s) <- fetch s ;;
    w <- zp_word s zp ;;
    Ok (Operand (Z.land (w + m_y s) 65535) s)
  | M_zpx => '(v, s) <- fetch s ;; Ok (Operand (Z.land (v + m_x s) 255) s)
  | M_clc => done (set_m_c 0 s)
  | M_absy_read => abs_indexed m_y true s
  | M_absy => abs_indexed m_y false s
  | M_nop_absx =>
    v <- mem_rd s (m_pc s) ;;
    done (skip 2 (if 256 <=? v + m_x s then add_cycles 1 s else s))
  | M_absx_read => abs_indexed m_x true s
  | M_absx => abs_indexed m_x false s
  | M_jsr =>
    '(addr, s) <- fetch s ;;
    s <- push_pc s ;;
    hi <- mem_rd s (m_pc s) ;;
    done (set_m_pc (addr + Z.shiftl hi 8) s)
  | M_plp => s <- pull_flags s ;; s <- check_irq s ;; done s
  | M_rol_a =>
    let v := Z.shiftl (m_a s) 1 + m_c s in
    done (load_a (Z.land v 255) (set_m_c (Z.shiftr v 8) s))
  | M_bmi => branch_if (128 <=? m_nz s) s
  | M_sec => done (set_m_c 1 s)
  | M_rti =>
    s <- pull_flags s ;;
    '(lo, s) <- pull s ;;
    '(hi, s) <- pull s ;;
    s <- check_irq (set_m_pc (lo + Z.shiftl hi 8) s) ;; done s
  | M_pha => s <- push (m_a s) s ;; done s
  | M_lsr_a => done (load_a (Z.shiftr (m_a s) 1) (set_m_c (Z.land (m_a s) 1) s))
  | M_asr =>
    '(v, s) <- fetch s ;;
    let a := Z.land (m_a s) v in
    done (load_a (Z.shiftr a 1) (set_m_c (Z.land a 1) s))
  | M_jmp =>
    '(addr, s) <- fetch s ;;
    hi <- mem_rd s (m_pc s) ;;
    done (set_m_pc (addr + Z.shiftl hi 8) s)
  | M_bvc => branch_if (Z.land (m_vdi s) 64 =? 0) s
  | M_cli => s <- check_irq (set_m_vdi (Z.land (m_vdi s) 72) s) ;; done s
  | M_rts =>
    '(lo, s) <- pull s ;;
    '(hi, s) <- pull s ;;
    done (set_m_pc (lo + (Z.shiftl hi 8 + 1)) s)
  | M_pla => '(v, s) <- pull s ;; done (load_a v s)
  | M_ror_a =>
    let v := Z.shiftl (m_c s) 7 + Z.shiftr (m_a s) 1 in
    done (load_a v (set_m_c (Z.land (m_a s) 1) s))
  | M_arr =>
    '(v, s) <- fetch s ;;
    let data := Z.land (m_a s) v in
    let a := Z.shiftr data 1 + Z.shiftl (m_c s) 7 in
    let s := load_a a s in
    let s := set_m_vdi (Z.land (m_vdi s) 12 + Z.land (Z.lxor a data) 64) s in
    if Z.land (m_vdi s) 8 =? 0 then done (set_m_c (Z.shiftr data 7) s)
    else
      let s := if 5 <=? Z.land data 15 then set_m_a (Z.land (m_a s) 240 + Z.land (m_a s + 6) 15) s else s in
      if 80 <=? data then done (set_m_c 1 (set_m_a (Z.land (m_a s + 96) 255) s)) else done (set_m_c 0 s)
  | M_bvs => branch_if (negb (Z.land (m_vdi s) 64 =? 0)) s
  | M_sei => done (set_m_vdi (Z.lor (m_vdi s) 4) s)
  | M_dey => done (load_y (Z.land (m_y s - 1) 255) s)
  | M_txa => done (load_a (m_x s) s)
  | M_ane =>
    '(data, s) <- fetch s ;;
    let a := Z.land (m_a s) (Z.land (Z.lor data 239) (m_x s)) in
    done (set_m_nz (Z.land a data) (set_m_a a s))
  | M_bcc => branch_if (m_c s =? 0) s
  | M_sha_indy =>
    '(zp, s) <- fetch s ;;
    hi <- mem_rd s (Z.land (zp + 1) 255) ;;
    lo <- mem_rd s zp ;;
    let data := Z.land (Z.land (hi + 1) (m_a s)) (m_x s) in
    let addr := lo + m_y s in
    let hi := if 256 <=? addr then data - 1 else hi in
    s <- cpu_poke (addr + Z.shiftl hi 8) data s ;; done s
  | M_zpy => '(v, s) <- fetch s ;; Ok (Operand (Z.land (v + m_y s) 255) s)
  | M_tya => done (load_a (m_y s) s)
  | M_txs => done (set_m_s (m_x s) s)
  | M_shs => let s := set_m_s (Z.land (m_a s) (m_x s)) s in s <- shx (m_y s) (m_s s) s ;; done s
  | M_shy => s <- shx (m_x s) (m_y s) s ;; done s
  | M_shx => s <- shx (m_y s) (m_x s) s ;; done s
  | M_sha_absy => s <- shx (m_y s) (Z.land (m_a s) (m_x s)) s ;; done s
  | M_tay => done (load_y (m_a s) s)
  | M_tax => done (load_x (m_a s) s)
  | M_anx =>
    '(v, s) <- fetch s ;;
    let a := Z.land (m_a s) v in done (load_x a (set_m_a a s))
  | M_bcs => branch_if (negb (m_c s =? 0)) s
  | M_clv => done (set_m_vdi (Z.land (m_vdi s) 12) s)
  | M_tsx => done (load_x (m_s s) s)
  | M_iny => done (load_y (Z.land (m_y s + 1) 255) s)
  | M_dex => done (load_x (Z.land (m_x s - 1) 255) s)
  | M_sbx =>
    '(v, s) <- fetch s ;;
    let x := Z.land (m_x s) (m_a s) in
    done (load_x (Z.land (x - v) 255) (set_m_c (if v <=? x then 1 else 0) s))
  | M_bne => branch_if (negb (Z.land (m_nz s) 255 =? 0)) s
  | M_cld => done (set_m_vdi (Z.land (m_vdi s) 68) s)
  | M_inx => done (load_x (Z.land (m_x s + 1) 255) s)
  | M_nop => done s
  | M_beq => branch_if (Z.land (m_nz s) 255 =? 0) s
  | M_sed => done (set_m_vdi (Z.lor (m_vdi s) 8) s)
  | M_abort => UB UbAbort
  end.

(* c and nz of a comparison *)
Definition compare (reg data : Z) (s : asap) : asap :=
  set_m_nz (Z.land (reg - data) 255) (set_m_c (if data <=? reg then 1 else 0) s).

(* asap.c:6292-6305 a taken branch *)
Definition take_branch (s : asap) : outcome asap :=
  v <- mem_rd s (m_pc s) ;;
  let pc := m_pc s + 1 in
  let addr := Z.lxor v 128 - 128 + pc in
  Ok (set_m_pc addr (add_cycles (if Z.shiftr (Z.lxor addr pc) 8 =? 0 then 1 else 2) s)).

(* asap.c:6266-6524, the bodies of the second switch *)
Definition run_operation (o : operation) (addr : Z) (s : asap) : outcome asap :=
  match o with
  | O_ora => v <- cpu_peek s addr ;; Ok (load_a (Z.lor (m_a s) v) s)
  | O_slo => '(v, s) <- arithmetic_shift_left addr s ;; Ok (load_a (Z.lor (m_a s) v) s)
  | O_asl => '(v, s) <- arithmetic_shift_left addr s ;; Ok (set_m_nz v s)
  | O_branch => take_branch s
  | O_and => v <- cpu_peek s addr ;; Ok (load_a (Z.land (m_a s) v) s)
  | O_rla => '(v, s) <- rotate_left addr s ;; Ok (load_a (Z.land (m_a s) v) s)
  | O_bit =>
    v <- cpu_peek s addr ;;
    Ok (set_m_nz (Z.shiftl (Z.land v 128) 1 + Z.land v (m_a s)) (set_m_vdi (Z.land (m_vdi s) 12 + Z.land v 64) s))
  | O_rol => '(v, s) <- rotate_left addr s ;; Ok (set_m_nz v s)
  | O_eor => v <- cpu_peek s addr ;; Ok (load_a (Z.lxor (m_a s) v) s)
  | O_sre => '(v, s) <- logical_shift_right addr s ;; Ok (load_a (Z.lxor (m_a s) v) s)
  | O_lsr => '(v, s) <- logical_shift_right addr s ;; Ok (set_m_nz v s)
  | O_adc => v <- cpu_peek s addr ;; Ok (add_with_carry v s)
  | O_rra => '(v, s) <- rotate_right addr s ;; Ok (add_with_carry v s)
  | O_ror => '(v, s) <- rotate_right addr s ;; Ok (set_m_nz v s)
  | O_jmp_ind =>
    lo <- mem_rd s addr ;;
    let addr := addr + 1 in
    let addr := if Z.land addr 255 =? 0 then addr - 255 else addr in
    hi <- mem_rd s addr ;;
    Ok (set_m_pc (lo + Z.shiftl hi 8) s)
  | O_sta => cpu_poke addr (m_a s) s
  | O_sax => cpu_poke addr (Z.land (m_a s) (m_x s)) s
  | O_sty => cpu_poke addr (m_y s) s
  | O_stx => cpu_poke addr (m_x s) s
  | O_ldy => v <- cpu_peek s addr ;; Ok (load_y v s)
  | O_lda => v <- cpu_peek s addr ;; Ok (load_a v s)
  | O_ldx => v <- cpu_peek s addr ;; Ok (load_x v s)
  | O_lax => v <- cpu_peek s addr ;; Ok (load_x v (set_m_a v s))
  | O_las => v <- cpu_peek s addr ;; let v := Z.land (m_s s) v in Ok (load_x v (set_m_a v (set_m_s v s)))
  | O_cpy => v <- cpu_peek s addr ;; Ok (compare (m_y s) v s)
  | O_cmp => v <- cpu_peek s addr ;; Ok (compare (m_a s) v s)
  | O_dcp => '(v, s) <- decrement addr s ;; Ok (compare (m_a s) v s)
  | O_dec => '(v, s) <- decrement addr s ;; Ok (set_m_nz v s)
  | O_cpx => v <- cpu_peek s addr ;; Ok (compare (m_x s) v s)
  | O_sbc => v <- cpu_peek s addr ;; Ok (subtract_with_carry v s)
  | O_isb => '(v, s) <- increment addr s ;; Ok (subtract_with_carry v s)
  | O_inc => '(v, s) <- increment addr s ;; Ok (set_m_nz v s)
  | O_abort => UB UbAbort
  end.

(* asap.c:5772-6524, executing one instruction *)
Definition execute (s : asap) : outcome asap :=
  '(data, s) <- fetch s ;;
  n <- get opcode_cycles data ;;
  r <- run_mode (first_switch data) (add_cycles n s) ;;
  match r with
  | Done s => Ok s
  | Operand addr s => run_operation (second_switch data) addr s
  end.

(* asap.c:5768-5771, the pending event before an instruction *)
Definition poll_event (s : asap) : outcome asap :=
  if m_nextEventCycle s <=? m_cycle s then s <- handle_event s ;; check_irq s else Ok s.

(* asap.c:5765-6526 Cpu6502_DoFrame: one iteration of its while loop, then the loop.
   The fuel is far more than the number of instructions of a frame. *)
Definition cpu_step (cycleLimit : Z) (s : asap) : outcome (asap + asap) :=
  if m_cycle s <? cycleLimit then s <- poll_event s ;; s <- execute s ;; continue_ s
  else leave s.
Definition frame_fuel : Z := 1099511627776.
Definition cpu_do_frame (cycleLimit : Z) (s : asap) : outcome asap := loopZ frame_fuel (cpu_step cycleLimit) s.

(* asap.c:2402-2419 ASAP_Do6502Frame *)
Definition end_timers (cycles : Z) (p : pokey) : pokey :=
  upd_chan 0 (channel_end_frame cycles) (upd_chan 1 (channel_end_frame cycles) (upd_chan 3 (channel_end_frame cycles) p)).
Definition do_6502_frame (s : asap) : outcome asap :=
  let s := set_m_nextScanlineCycle 0 (set_m_nextEventCycle 0 s) in
  let s := set_m_nmist (match m_nmist s with NMI_RESET => NMI_ON_V_BLANK | _ => NMI_WAS_V_BLANK end) s in
  let cycles := frame_cycles (m_info s) in
  s <- cpu_do_frame cycles s ;;
  let s := set_m_cycle (m_cycle s - cycles) s in
  let s := if m_nextPlayerCycle s =? never then s else set_m_nextPlayerCycle (m_nextPlayerCycle s - cycles) s in
  let pp := m_pokeys s in
  Ok (set_m_pokeys (set_pp_extraPokey (end_timers cycles (pp_extraPokey pp))
                     (set_pp_basePokey (end_timers cycles (pp_basePokey pp)) pp)) s).

(* asap.c:2421-2428 ASAP_DoFrame: returns the number of cycles *)
Definition do_frame (s : asap) : outcome (Z * asap) :=
  let s := set_m_gtiaOrCovoxPlayedThisFrame false s in
  pp <- pair_start_frame (m_pokeys s) ;;
  s <- do_6502_frame (set_m_pokeys pp s) ;;
  let cycles := frame_cycles (m_info s) in
  pp <- pair_end_frame cycles (m_pokeys s) ;;
  Ok (cycles, set_m_pokeys pp s).
