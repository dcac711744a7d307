(* Model of the playback side of class ASAP (asap.fu; asap.c:2212-2225, 2430-2722).
   ASAPInfo_Load is api_load of NativeModel.v. *)
From Verif Require Import Base Loop MemModel InfoModel NativeModel WriterModel PokeyModel MachineModel.

(* asap.c:2217-2220 ASAP_SetSampleRate *)
Definition api_set_sample_rate (sampleRate : Z) (s : asap) : asap := set_m_currentSampleRate sampleRate s.

(* asap.c:2222-2225 ASAP_DetectSilence *)
Definition api_detect_silence (seconds : Z) (s : asap) : outcome asap :=
  v <- chk (seconds * 1773447) ;;
  Ok (set_m_silenceCyclesCounter v (set_m_silenceCycles v s)).

(* asap.c:2449-2466, the blocks of a SAP file, one iteration of the while loop, then the loop *)
Definition load_block (module : list Z) (im : Z * mem) : outcome (Z * mem + mem) :=
  let '(moduleIndex, m) := im in
  if moduleIndex + 5 <=? len module then
    startAddr <- get_word module moduleIndex ;;
    last <- get_word module (moduleIndex + 2) ;;
    let blockLen := last + 1 - startAddr in
    if (blockLen <=? 0) || (len module <? moduleIndex + blockLen) then Fail
    else
      let moduleIndex := moduleIndex + 4 in
      l <- get_range module moduleIndex (moduleIndex + blockLen) ;;
      m <- wr_list m startAddr l ;;
      let moduleIndex := moduleIndex + blockLen in
      if moduleIndex =? len module then leave m
      else
        ff <- (if moduleIndex + 7 <=? len module
               then a <- get module moduleIndex ;;
                    if a =? 255 then b <- get module (moduleIndex + 1) ;; Ok (b =? 255) else Ok false
               else Ok false) ;;
        continue_ (if (ff : bool) then moduleIndex + 2 else moduleIndex, m)
  else Fail.
Definition load_blocks (module : list Z) (i : Z) (m : mem) : outcome mem := loopZ (len module + 1) (load_block module) (i, m).

(* asap.c:2430-2467 ASAP_Load.  The state of [s] after a failure is not modelled. *)
Definition asap_load (fuel : nat) (filename : option (list Z)) (module : list Z) (s : asap) : outcome asap :=
  inf <- api_load fuel (m_info s) filename module ;;
  match player_routine inf with
  | Some routine =>
    player <- get_word routine 2 ;;
    playerLastByte <- get_word routine 4 ;;
    let music := i_music inf in
    if music <=? playerLastByte then Fail
    else
      let from := if module_type_eqb (i_type inf) FC then 0 else 6 in
      l <- get_range module from (len module) ;;
      m <- wr_list (st (m_memory s) 19456 0) music l ;;
      code <- get_range routine 6 (6 + (playerLastByte + 1 - player)) ;;
      m <- wr_list m player code ;;
      let inf := if i_player inf <? 0 then set_player player inf else inf in
      Ok (set_m_memory m (set_m_info inf s))
  | None =>
    m <- load_blocks module (i_headerLen inf + 2) mem0 ;;
    Ok (set_m_memory m (set_m_info inf s))
  end.

(* asap.c:2474-2490 ASAP_Do6502Init *)
Fixpoint init_frames (n : nat) (s : asap) : outcome (bool * asap) :=
  match n with
  | O => Ok (false, s)
  | S k => s <- do_6502_frame s ;; if m_pc s =? 53760 then Ok (true, s) else init_frames k s
  end.
Definition do_6502_init (pc a x y : Z) (s : asap) : outcome (bool * asap) :=
  let s := set_m_y (Z.land y 255) (set_m_x (Z.land x 255) (set_m_a (Z.land a 255) (set_m_pc pc s))) in
  let m := st (st (st (m_memory s) 53760 210) 510 255) 511 209 in
  init_frames 50 (set_m_s 253 (set_m_memory m s)).

(* asap.c:2492-2496 ASAP_MutePokeyChannels *)
Definition api_mute (mask : Z) (s : asap) : asap :=
  let pp := m_pokeys s in
  set_m_pokeys (set_pp_extraPokey (pokey_mute (Z.shiftr mask 4) (pp_extraPokey pp))
                 (set_pp_basePokey (pokey_mute mask (pp_basePokey pp)) pp)) s.

(* asap.c:2498-2571 ASAP_PlaySong, up to the switch *)
Definition play_prepare (song duration : Z) (s : asap) : outcome asap :=
  let s := set_m_silenceCyclesCounter (m_silenceCycles s) (set_m_blocksPlayed 0 (set_m_nextPlayerCycle never
             (set_m_currentDuration duration (set_m_currentSong song s)))) in
  let s := set_m_covox [128; 128; 128; 128] (set_m_consol 8 (set_m_nmist NMI_ON_V_BLANK (cpu_reset s))) in
  pp <- pair_initialize (i_ntsc (m_info s)) (1 <? i_channels (m_info s)) (m_currentSampleRate s) (m_pokeys s) ;;
  Ok (api_mute 255 (set_m_pokeys pp s)).

(* run the initialisation calls in order until one of them fails *)
Definition then_init (pc a x y : Z) (m : outcome (bool * asap)) : outcome (bool * asap) :=
  '(b, s) <- m ;; if (b : bool) then do_6502_init pc a x y s else Ok (false, s).

(* the switch (asap.c:2516-2567) *)
Definition play_init (song : Z) (s : asap) : outcome (bool * asap) :=
  let inf := m_info s in
  let player := i_player inf in
  let music := i_music inf in
  match i_type inf with
  | SAP_B => do_6502_init (i_init inf) song 0 0 s
  | SAP_C | CMC | CM3 | CMR | CMS =>
    then_init (player + 3) 0 song 0 (do_6502_init (player + 3) 112 music (Z.shiftr music 8) s)
  | SAP_D | SAP_S => Ok (true, set_m_s 255 (set_m_y 0 (set_m_x 0 (set_m_a song (set_m_pc (i_init inf) s)))))
  | DLT => pos <- get (i_songPos inf) song ;; do_6502_init (player + 256) 0 0 pos s
  | MPT =>
    pos <- get (i_songPos inf) song ;;
    then_init player 2 pos 0 (do_6502_init player 0 (Z.shiftr music 8) music s)
  | RMT => pos <- get (i_songPos inf) song ;; do_6502_init player pos music (Z.shiftr music 8) s
  | TMC | TM2 =>
    '(b, s) <- then_init player 0 song 0 (do_6502_init player 112 (Z.shiftr music 8) music s) ;;
    Ok (b, if (b : bool) then set_m_tmcPerFrameCounter 1 s else s)
  | FC => do_6502_init player song 0 0 s
  end.

Definition api_play_song (song duration : Z) (s : asap) : outcome (bool * asap) :=
  if (song <? 0) || (i_songs (m_info s) <=? song) then Ok (false, s)
  else
    s <- play_prepare song duration s ;;
    '(b, s) <- play_init song s ;;
    Ok (b, if (b : bool) then set_m_nextPlayerCycle 0 (api_mute 0 s) else s).

(* asap.c:2573-2576 ASAP_GetBlocksPlayed *)
Definition api_blocks_played (s : asap) : Z := m_blocksPlayed s.

(* asap.c:2578-2581 ASAP_GetPosition *)
Definition api_get_position (s : asap) : outcome Z :=
  v <- chk (m_blocksPlayed s * 10) ;;
  let d := Z.quot (m_currentSampleRate s) 100 in
  if d =? 0 then UB UbOverflow else Ok (Z.quot v d).

(* asap.c:2583-2587 ASAP_MillisecondsToBlocks *)
Definition milliseconds_to_blocks (milliseconds : Z) (s : asap) : Z :=
  wrap32 (Z.quot (milliseconds * m_currentSampleRate s) 1000).

(* asap.c:2589-2602 ASAP_SeekSample: one iteration of the while loop, then the function *)
Definition seek_fuel : Z := 18446744073709551616.
Definition seek_step (block : Z) (s : asap) : outcome (asap + asap) :=
  e <- chk (m_blocksPlayed s + pp_readySamplesEnd (m_pokeys s)) ;;
  if e <? block then
    '(_, s) <- do_frame (set_m_blocksPlayed e s) ;; continue_ s
  else leave s.
Definition api_seek_sample (block : Z) (s : asap) : outcome (bool * asap) :=
  '(b, s) <- (if block <? m_blocksPlayed s then api_play_song (m_currentSong s) (m_currentDuration s) s else Ok (true, s)) ;;
  if (b : bool) then
    s <- loopZ seek_fuel (seek_step block) s ;;
    let s := set_m_pokeys (set_pp_readySamplesStart (block - m_blocksPlayed s) (m_pokeys s)) s in
    Ok (true, set_m_blocksPlayed block s)
  else Ok (false, s).

(* asap.c:2604-2607 ASAP_Seek *)
Definition api_seek (position : Z) (s : asap) : outcome (bool * asap) :=
  api_seek_sample (milliseconds_to_blocks position s) s.

(* asap.c:2609-2621 ASAP_PutLittleEndian(s) *)
Definition le32 (value : Z) : list Z :=
  [u8 value; u8 (Z.shiftr value 8); u8 (Z.shiftr value 16); u8 (Z.shiftr value 24)].
Definition put_le (buffer : list Z) (offset value : Z) : outcome (list Z) := store_bytes buffer offset (le32 value).
Definition put_le2 (buffer : list Z) (offset value1 value2 : Z) : outcome (list Z) :=
  buffer <- put_le buffer offset value1 ;; put_le buffer (offset + 4) value2.

(* asap.c:2623-2636 ASAP_PutWavMetadata: the new offset and buffer *)
Definition put_wav_metadata (buffer : list Z) (offset fourCC : Z) (value : list Z) : outcome (Z * list Z) :=
  let n := len value in
  if 0 <? n then
    buffer <- put_le2 buffer offset fourCC (Z.lor n 1 + 1) ;;
    let offset := offset + 8 in
    buffer <- store_bytes buffer offset (map u8 value) ;;
    buffer <- set_nth buffer (offset + n) 0 ;;
    if Z.land n 1 =? 0 then buffer <- set_nth buffer (offset + n + 1) 0 ;; Ok (offset + n + 2, buffer)
    else Ok (offset + n + 1, buffer)
  else Ok (offset, buffer).

(* asap.c:2663-2672 the year *)
Definition put_wav_year (buffer : list Z) (i year : Z) : outcome (Z * list Z) :=
  if 0 <? year then
    buffer <- put_le2 buffer i 1146241865 6 ;;
    let digit n := u8 (48 + Z.rem (Z.quot year n) 10) in
    buffer <- set_nth buffer (i + 11) (digit 1) ;;
    buffer <- set_nth buffer (i + 10) (digit 10) ;;
    buffer <- set_nth buffer (i + 9) (digit 100) ;;
    buffer <- set_nth buffer (i + 8) (digit 1000) ;;
    buffer <- set_nth buffer (i + 12) 0 ;;
    buffer <- set_nth buffer (i + 13) 0 ;;
    Ok (i + 14, buffer)
  else Ok (i, buffer).

(* asap.c:2655-2675 the LIST chunk *)
Definition put_wav_list (buffer : list Z) (inf : info) : outcome (Z * list Z) :=
  year <- api_get_year inf ;;
  if (0 <? len (i_title inf)) || (0 <? len (i_author inf)) || (0 <? year) then
    buffer <- put_le buffer 44 1330007625 ;;
    '(i, buffer) <- put_wav_metadata buffer 48 1296125513 (i_title inf) ;;
    '(i, buffer) <- put_wav_metadata buffer i 1414676809 (i_author inf) ;;
    '(i, buffer) <- put_wav_year buffer i year ;;
    buffer <- put_le2 buffer 36 1414744396 (i - 44) ;;
    Ok (i, buffer)
  else Ok (36, buffer).

Definition is_u8 (format : sample_format) : bool := match format with U8 => true | _ => false end.

(* asap.c:2638-2679 ASAP_GetWavHeader: the number of bytes stored and the buffer *)
Definition api_wav_header (buffer : list Z) (format : sample_format) (metadata : bool) (s : asap) : outcome (Z * list Z) :=
  let inf := m_info s in
  let use16bit := if is_u8 format then 0 else 1 in
  let blockSize := Z.shiftl (i_channels inf) use16bit in
  bytesPerSecond <- chk (m_currentSampleRate s * blockSize) ;;
  let totalBlocks := milliseconds_to_blocks (m_currentDuration s) s in
  blocks <- chk (totalBlocks - m_blocksPlayed s) ;;
  nBytes <- chk (blocks * blockSize) ;;
  buffer <- put_le buffer 8 1163280727 ;;
  buffer <- put_le2 buffer 12 544501094 16 ;;
  buffer <- store_bytes buffer 20 [1; 0; u8 (i_channels inf); 0] ;;
  buffer <- put_le2 buffer 24 (m_currentSampleRate s) bytesPerSecond ;;
  buffer <- store_bytes buffer 32 [u8 blockSize; 0; u8 (Z.shiftl 8 use16bit); 0] ;;
  '(i, buffer) <- (if metadata then put_wav_list buffer inf else Ok (36, buffer)) ;;
  riff <- chk (i + nBytes) ;;
  buffer <- put_le2 buffer 0 1179011410 riff ;;
  buffer <- put_le2 buffer i 1635017060 nBytes ;;
  Ok (i + 8, buffer).

(* asap.c:2681-2711 ASAP_GenerateAt: the iteration of the for loop, then the function.
   The state of the loop is (block, buffer, s). *)
Definition generate_iter (bufferOffset bufferBlocks blockShift : Z) (format : sample_format)
  (st : Z * list Z * asap) : outcome (Z * list Z * asap + Z * list Z * asap) :=
  let '(block, buffer, s) := st in
  '(blocks, buffer, pp) <-
    pair_generate buffer (bufferOffset + Z.shiftl block blockShift) (bufferBlocks - block) format (m_pokeys s) ;;
  played <- chk (m_blocksPlayed s + blocks) ;;
  let s := set_m_blocksPlayed played (set_m_pokeys pp s) in
  let block := block + blocks in
  if bufferBlocks <=? block then leave (block, buffer, s)
  else
    '(cycles, s) <- do_frame s ;;
    if 0 <? m_silenceCycles s then
      if pair_is_silent (m_pokeys s) && negb (m_gtiaOrCovoxPlayedThisFrame s) then
        let n := m_silenceCyclesCounter s - cycles in
        let s := set_m_silenceCyclesCounter n s in
        if n <=? 0 then leave (block, buffer, s) else continue_ (block, buffer, s)
      else continue_ (block, buffer, set_m_silenceCyclesCounter (m_silenceCycles s) s)
    else continue_ (block, buffer, s).
Definition generate_fuel : Z := 18446744073709551616.
Definition block_shift (inf : info) (format : sample_format) : Z := i_channels inf - (if is_u8 format then 1 else 0).
Definition generate_limit (bufferLen : Z) (format : sample_format) (s : asap) : outcome Z :=
  let bufferBlocks := Z.shiftr bufferLen (block_shift (m_info s) format) in
  if 0 <? m_currentDuration s then
    rest <- chk (milliseconds_to_blocks (m_currentDuration s) s - m_blocksPlayed s) ;;
    Ok (if rest <? bufferBlocks then rest else bufferBlocks)
  else Ok bufferBlocks.
Definition generate_at (buffer : list Z) (bufferOffset bufferLen : Z) (format : sample_format) (s : asap)
  : outcome (Z * list Z * asap) :=
  if (0 <? m_silenceCycles s) && (m_silenceCyclesCounter s <=? 0) then Ok (0, buffer, s)
  else
    let blockShift := block_shift (m_info s) format in
    bufferBlocks <- generate_limit bufferLen format s ;;
    '(block, buffer, s) <-
      loopZ generate_fuel (generate_iter bufferOffset bufferBlocks blockShift format) (0, buffer, s) ;;
    Ok (Z.shiftl block blockShift, buffer, s).

(* asap.c:2713-2716 ASAP_Generate: the number of bytes, the buffer and the new state *)
Definition api_generate (buffer : list Z) (bufferLen : Z) (format : sample_format) (s : asap) : outcome (Z * list Z * asap) :=
  generate_at buffer 0 bufferLen format s.

(* asap.c:2718-2722 ASAP_GetPokeyChannelVolume *)
Definition api_channel_volume (channel : Z) (s : asap) : Z :=
  let pp := m_pokeys s in
  let p := if Z.land channel 4 =? 0 then pp_basePokey pp else pp_extraPokey pp in
  Z.land (ch_audc (chan p (Z.land channel 3))) 15.
