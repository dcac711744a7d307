(* Model of the native module parsers of class ASAPInfo (asapinfo.fu; asap.c:2857-3770) and of
   ASAPInfo_Load (asap.c:4035-4126).
   - [fuel] is given to every loop whose number of iterations is not fixed.
   - Integers are unbounded except in AddSong, where the int product is checked: the counters
     grow only by additions of non-negative terms, so an overflow of a counter also makes that
     product overflow.
   - Local arrays that C leaves uninitialised start as -1, so that any use as an offset is a
     read outside the module.
   - When a parser fails the partly updated ASAPInfo is not modelled. *)
From Coq Require Import String.
From Verif Require Import Base Loop InfoModel.

(* asap.c:2857-2877 ASAPInfo_ParseModule; sets music *)
Definition parse_module (inf : info) (module : list Z) : outcome info :=
  m0 <- get module 0 ;;
  m1 <- get module 1 ;;
  if negb (((m0 =? 255) && (m1 =? 255)) || ((m0 =? 0) && (m1 =? 0))) then Fail
  else
    music <- get_word module 2 ;;
    musicLastByte <- get_word module 4 ;;
    if (music <=? 55295) && (53248 <=? musicLastByte) then Fail
    else
      let blockLen := musicLastByte + 1 - music in
      if 6 + blockLen =? len module then Ok (set_music music inf)
      else if negb (module_type_eqb (i_type inf) RMT) || (len module <? 11 + blockLen) then Fail
      else
        infoAddr <- get_word module (6 + blockLen) ;;
        if negb (infoAddr =? music + blockLen) then Fail
        else
          infoLast <- get_word module (8 + blockLen) ;;
          let infoLen := infoLast + 1 - infoAddr in
          if negb (10 + blockLen + infoLen =? len module) then Fail
          else Ok (set_music music inf).

(* asap.c:2879-2883 ASAPInfo_AddSong *)
Definition add_song (inf : info) (playerCalls : Z) : outcome info :=
  scanlines <- chk (playerCalls * i_fastplay inf) ;;
  l <- set_nth (i_durations inf) (i_songs inf) (Z.quot (scanlines * 38000) 591149) ;;
  Ok (set_songs (i_songs inf + 1) (set_durations l inf)).

(* "self->loops[self->songs] = b" *)
Definition set_song_loop (b : bool) (inf : info) : outcome info :=
  l <- set_nth (i_loops inf) (i_songs inf) b ;; Ok (set_loops l inf).

(* "self->songPos[self->songs] = (uint8_t) pos" *)
Definition set_song_pos (pos : Z) (inf : info) : outcome info :=
  l <- set_nth (i_songPos inf) (i_songs inf) (u8 pos) ;; Ok (set_songPos l inf).

(* short-circuit "module[i1] < b1 || module[i2] < b2 || ..." *)
Fixpoint any_below (module : list Z) (l : list (Z * Z)) : outcome bool :=
  match l with
  | [] => Ok false
  | (i, b) :: r => v <- get module i ;; if v <? b then Ok true else any_below module r
  end.

(* ------------------------------------------------------------------ *)
(* CMC family                                                          *)

(* the variables of ASAPInfo_ParseCmcSong *)
Record cmc := mkCmc {
  c_inf : info; c_pos : Z; c_tempo : Z; c_calls : Z;
  c_repStart : Z; c_repEnd : Z; c_repTimes : Z; c_seen : list Z
}.

(* asap.c:2914-2966: the effect of one song line after "seen[pos] = 1" and the test for 254 *)
Definition cmc_line (inf : info) (pos tempo calls repStart repEnd repTimes : Z) (seen : list Z) (p1 p2 p3 : Z) : outcome cmc :=
  let p1 := Z.lor p1 (if module_type_eqb (i_type inf) CMS then 7 else 15) in
  if (p1 =? 135) || (p1 =? 167) then Ok (mkCmc inf (pos + 1) tempo calls repStart repEnd repTimes seen)
  else if p1 =? 143 then Ok (mkCmc inf (-1) tempo calls repStart repEnd repTimes seen)
  else if p1 =? 151 then
    let calls := if p2 <? 128 then calls + p2 + (if p3 <? 128 then p3 * 50 else 0) else calls in
    Ok (mkCmc inf (pos + 1) tempo calls repStart repEnd repTimes seen)
  else if p1 =? 159 then Ok (mkCmc inf p2 tempo calls repStart repEnd repTimes seen)
  else if p1 =? 175 then Ok (mkCmc inf (pos - p2) tempo calls repStart repEnd repTimes seen)
  else if p1 =? 191 then Ok (mkCmc inf (pos + p2) tempo calls repStart repEnd repTimes seen)
  else if p1 =? 207 then
    if p2 <? 128 then Ok (mkCmc inf (pos + 1) p2 calls repStart repEnd repTimes seen)
    else Ok (mkCmc inf (-1) tempo calls repStart repEnd repTimes seen)
  else if p1 =? 223 then
    let pos := pos + 1 in Ok (mkCmc inf pos tempo calls pos (pos + p2) (p3 - 1) seen)
  else if p1 =? 239 then
    inf <- set_song_loop true inf ;; Ok (mkCmc inf (-1) tempo calls repStart repEnd repTimes seen)
  else
    let p2 := if 0 <? repTimes then 3 else 2 in
    let seen := map (fun v => if v =? 1 then p2 else v) seen in
    Ok (mkCmc inf (pos + 1) tempo (calls + tempo * (if module_type_eqb (i_type inf) CM3 then 48 else 64))
          repStart repEnd repTimes seen).

(* asap.c:2893-2967: one iteration of the loop of ASAPInfo_ParseCmcSong *)
Definition cmc_step (module : list Z) (s : cmc) : outcome (cmc + (info * Z)) :=
  if negb ((0 <=? c_pos s) && (c_pos s <? 85)) then leave (c_inf s, c_calls s)
  else
    let rep := (c_pos s =? c_repEnd s) && (0 <? c_repTimes s) in
    let seen := if rep then map (fun v => if (v =? 1) || (v =? 3) then 0 else v) (c_seen s) else c_seen s in
    let repTimes := if rep then c_repTimes s - 1 else c_repTimes s in
    let pos := if rep then c_repStart s else c_pos s in
    sp <- get seen pos ;;
    if negb (sp =? 0) then
      inf <- (if negb (sp =? 1) then set_song_loop true (c_inf s) else Ok (c_inf s)) ;;
      leave (inf, c_calls s)
    else
      seen <- set_nth seen pos 1 ;;
      p1 <- get module (518 + pos) ;;
      p2 <- get module (603 + pos) ;;
      p3 <- get module (688 + pos) ;;
      if (p1 =? 254) || (p2 =? 254) || (p3 =? 254) then
        continue_ (mkCmc (c_inf s) (pos + 1) (c_tempo s) (c_calls s) (c_repStart s) (c_repEnd s) repTimes seen)
      else
        s' <- cmc_line (c_inf s) pos (c_tempo s) (c_calls s) (c_repStart s) (c_repEnd s) repTimes seen p1 p2 p3 ;;
        continue_ s'.

(* asap.c:2885-2969 ASAPInfo_ParseCmcSong *)
Definition parse_cmc_song (fuel : nat) (module : list Z) (inf : info) (pos : Z) : outcome info :=
  tempo <- get module 25 ;;
  '(inf, calls) <- loop fuel (cmc_step module) (mkCmc inf pos tempo 0 0 0 0 (repeat 0 85)) ;;
  add_song inf calls.

(* asap.c:2978-2986: "int lastPos = 84; while (--lastPos >= 0)" with [n] = lastPos before the decrement *)
Fixpoint cmc_last_pos (module : list Z) (channels : Z) (n : nat) : outcome Z :=
  match n with
  | O => Ok (-1)
  | S k =>
    let p := Z.of_nat k in
    b <- any_below module [(518 + p, 176); (603 + p, 64); (688 + p, 64)] ;;
    if b : bool then Ok p
    else if channels =? 2 then
      b <- any_below module [(774 + p, 176); (859 + p, 64); (944 + p, 64)] ;;
      if b : bool then Ok p else cmc_last_pos module channels k
    else cmc_last_pos module channels k
  end.

(* asap.c:2989-2991: the loop over positions; [n] counts the remaining ones *)
Fixpoint cmc_songs (fuel : nat) (module : list Z) (inf : info) (n : nat) (pos : Z) : outcome info :=
  match n with
  | O => Ok inf
  | S n =>
    if i_songs inf <? 32 then
      c <- get module (518 + pos) ;;
      inf <- (if (c =? 143) || (c =? 239) then parse_cmc_song fuel module inf (pos + 1) else Ok inf) ;;
      cmc_songs fuel module inf n (pos + 1)
    else Ok inf
  end.

(* asap.c:2971-2993 ASAPInfo_ParseCmc *)
Definition parse_cmc (fuel : nat) (type : module_type) (inf : info) (module : list Z) : outcome info :=
  if len module <? 774 then Fail
  else
    inf <- parse_module (set_type type inf) module ;;
    lastPos <- cmc_last_pos module (i_channels inf) 84 ;;
    inf <- parse_cmc_song fuel module (set_songs 0 inf) 0 ;;
    cmc_songs fuel module inf (Z.to_nat lastPos) 0.

(* ------------------------------------------------------------------ *)
(* DLT                                                                 *)

(* asap.c:2995-2998 ASAPInfo_IsDltTrackEmpty *)
Definition is_dlt_track_empty (module : list Z) (pos : Z) : outcome bool :=
  b <- any_below module [(8198 + pos, 67); (8454 + pos, 64); (8710 + pos, 64); (8966 + pos, 64)] ;; Ok (negb b).

(* asap.c:3000-3011 ASAPInfo_IsDltPatternEnd; the channels [ch], ... (n of them) *)
Fixpoint is_dlt_pattern_end (module : list Z) (pos i : Z) (n : nat) (ch : Z) : outcome bool :=
  match n with
  | O => Ok false
  | S n =>
    pattern <- get module (8198 + Z.shiftl ch 8 + pos) ;;
    e <- (if pattern <? 64 then
            let offset := 6 + Z.shiftl pattern 7 + Z.shiftl i 1 in
            a <- get module offset ;;
            if Z.land a 128 =? 0 then b <- get module (offset + 1) ;; Ok (negb (Z.land b 128 =? 0)) else Ok false
          else Ok false) ;;
    if e : bool then Ok true else is_dlt_pattern_end module pos i n (ch + 1)
  end.

(* asap.c:3035-3036: "for (int i = 0; i < 64 && !IsDltPatternEnd; i++) playerCalls += tempo" *)
Fixpoint dlt_rows (module : list Z) (pos tempo : Z) (n : nat) (i playerCalls : Z) : outcome Z :=
  match n with
  | O => Ok playerCalls
  | S n =>
    e <- is_dlt_pattern_end module pos i 4 0 ;;
    if e : bool then Ok playerCalls else dlt_rows module pos tempo n (i + 1) (playerCalls + tempo)
  end.

(* asap.c:3015-3016: skip empty tracks *)
Definition dlt_skip_step (module : list Z) (s : list Z * Z) : outcome (list Z * Z + list Z * Z) :=
  let '(seen, pos) := s in
  if pos <? 128 then
    v <- get seen pos ;;
    if v =? 0 then
      e <- is_dlt_track_empty module pos ;;
      if e : bool then seen <- set_nth seen pos 1 ;; continue_ (seen, pos + 1) else leave (seen, pos)
    else leave (seen, pos)
  else leave (seen, pos).

(* asap.c:3021-3039: one iteration; state (seen, pos, tempo, playerCalls), result (seen, loop, playerCalls) *)
Definition dlt_song_step (module : list Z) (s : list Z * Z * Z * Z) : outcome (list Z * Z * Z * Z + list Z * bool * Z) :=
  let '(seen, pos, tempo, calls) := s in
  if pos <? 128 then
    v <- get seen pos ;;
    if negb (v =? 0) then leave (seen, true, calls)
    else
      seen <- set_nth seen pos 1 ;;
      p1 <- get module (8198 + pos) ;;
      e <- (if p1 =? 64 then Ok true else is_dlt_track_empty module pos) ;;
      if e : bool then leave (seen, false, calls)
      else if p1 =? 65 then pos <- get module (8326 + pos) ;; continue_ (seen, pos, tempo, calls)
      else if p1 =? 66 then tempo <- get module (8326 + pos) ;; continue_ (seen, pos + 1, tempo, calls)
      else calls <- dlt_rows module pos tempo 64 0 calls ;; continue_ (seen, pos + 1, tempo, calls)
  else leave (seen, false, calls).

(* asap.c:3013-3044 ASAPInfo_ParseDltSong; returns the info and seen *)
Definition parse_dlt_song (fuel : nat) (module : list Z) (inf : info) (seen : list Z) (pos : Z) : outcome (info * list Z) :=
  '(seen, pos) <- loop fuel (dlt_skip_step module) (seen, pos) ;;
  inf <- set_song_pos pos inf ;;
  '(seen, lp, calls) <- loop fuel (dlt_song_step module) (seen, pos, 6, 0) ;;
  if 0 <? calls then
    inf <- set_song_loop lp inf ;;
    inf <- add_song inf calls ;;
    Ok (inf, seen)
  else Ok (inf, seen).

(* asap.c:3057-3060: the loop over positions *)
Fixpoint dlt_songs (fuel : nat) (module : list Z) (inf : info) (seen : list Z) (n : nat) (pos : Z) : outcome info :=
  match n with
  | O => Ok inf
  | S n =>
    if i_songs inf <? 32 then
      v <- get seen pos ;;
      '(inf, seen) <- (if v =? 0 then parse_dlt_song fuel module inf seen pos else Ok (inf, seen)) ;;
      dlt_songs fuel module inf seen n (pos + 1)
    else Ok inf
  end.

(* asap.c:3046-3064 ASAPInfo_ParseDlt *)
Definition parse_dlt (fuel : nat) (inf : info) (module : list Z) : outcome info :=
  if negb (len module =? 11270) && negb (len module =? 11271) then Fail
  else
    inf <- parse_module (set_type DLT inf) module ;;
    if negb (i_music inf =? 8192) then Fail
    else
      inf <- dlt_songs fuel module (set_songs 0 inf) (repeat 0 128) 128 0 ;;
      if i_songs inf =? 0 then Fail else Ok inf.

(* ------------------------------------------------------------------ *)
(* MPT                                                                 *)

(* asap.c:3110-3127: read one pattern until a note; state (offset, blank rows, tempo, patternRows) *)
Definition mpt_note_step (module : list Z) (s : Z * Z * Z * Z) : outcome (Z * Z * Z * Z + Z * Z * Z * Z) :=
  let '(off, blank, tempo, rows) := s in
  i <- get module off ;;
  let off := off + 1 in
  if (i <? 64) || (i =? 254) then leave (off, blank, tempo, rows)
  else if i <? 128 then continue_ (off, blank, tempo, rows)
  else if i <? 192 then continue_ (off, i - 128, tempo, rows)
  else if i <? 208 then continue_ (off, blank, tempo, rows)
  else if i <? 224 then continue_ (off, blank, i - 207, rows)
  else continue_ (off, blank, tempo, 0).

(* the variables of ASAPInfo_ParseMptSong that a pattern row changes *)
Record mpt := mkMpt { m_tempo : Z; m_rows : Z; m_off : list Z; m_blank : list Z; m_cnt : list Z }.

(* asap.c:3105-3129: channels ch = n-1, ..., 0 of one row *)
Fixpoint mpt_channels (fuel : nat) (module : list Z) (n : nat) (s : mpt) : outcome mpt :=
  match n with
  | O => Ok s
  | S k =>
    let ch := Z.of_nat k in
    off <- get (m_off s) ch ;;
    s <- (if off =? 0 then Ok s
          else
            c <- get (m_cnt s) ch ;;
            cnt <- set_nth (m_cnt s) ch (c - 1) ;;
            if 0 <=? c - 1 then Ok (mkMpt (m_tempo s) (m_rows s) (m_off s) (m_blank s) cnt)
            else
              blank <- get (m_blank s) ch ;;
              '(off, blank, tempo, rows) <- loop fuel (mpt_note_step module) (off, blank, m_tempo s, m_rows s) ;;
              offs <- set_nth (m_off s) ch off ;;
              blanks <- set_nth (m_blank s) ch blank ;;
              cnt <- set_nth cnt ch blank ;;
              Ok (mkMpt tempo rows offs blanks cnt)) ;;
    mpt_channels fuel module k s
  end.

(* asap.c:3104-3131: "for (patternRows = ...; --patternRows >= 0;)" *)
Definition mpt_row_step (fuel : nat) (module : list Z) (s : mpt * Z) : outcome (mpt * Z + mpt * Z) :=
  let '(m, calls) := s in
  let rows := m_rows m - 1 in
  if 0 <=? rows then
    m <- mpt_channels fuel module 4 (mkMpt (m_tempo m) rows (m_off m) (m_blank m) (m_cnt m)) ;;
    continue_ (m, calls + m_tempo m)
  else leave (m, calls).

(* asap.c:3089-3098: set up the patterns of the channels n-1, ..., 0; None: an invalid pattern *)
Fixpoint mpt_patterns (module : list Z) (addrToOffset pos : Z) (n : nat) (offs cnt : list Z) : outcome (option (list Z * list Z)) :=
  match n with
  | O => Ok (Some (offs, cnt))
  | S k =>
    let ch := Z.of_nat k in
    lo <- get module (454 + ch) ;;
    hi <- get module (458 + ch) ;;
    i <- get module (lo + Z.shiftl hi 8 - addrToOffset + pos * 2) ;;
    if 64 <=? i then Ok None
    else
      i <- get_word module (70 + Z.shiftl i 1) ;;
      offs <- set_nth offs ch (if i =? 0 then 0 else i - addrToOffset) ;;
      cnt <- set_nth cnt ch 0 ;;
      mpt_patterns module addrToOffset pos k offs cnt
  end.

(* asap.c:3101-3103, 3265-3267: "for (i = 0; i < songLen; i++) if (seen[i] == 1) seen[i] = 2" *)
Definition mark_seen (songLen : Z) (seen : list Z) : list Z :=
  map (fun v => if v =? 1 then 2 else v) (firstn (Z.to_nat songLen) seen) ++ skipn (Z.to_nat songLen) seen.

(* the variables of ASAPInfo_ParseMptSong *)
Record mpt_song := mkMptSong {
  ms_inf : info; ms_gseen : list Z; ms_seen : list Z; ms_pos : Z; ms_calls : Z; ms_m : mpt
}.

(* asap.c:3075-3133: one iteration; the result is (info, globalSeen, playerCalls) *)
Definition mpt_song_step (fuel : nat) (module : list Z) (songLen addrToOffset : Z) (s : mpt_song) : outcome (mpt_song + info * list Z * Z) :=
  if ms_pos s <? songLen then
    v <- get (ms_seen s) (ms_pos s) ;;
    if negb (v =? 0) then
      inf <- (if negb (v =? 1) then set_song_loop true (ms_inf s) else Ok (ms_inf s)) ;;
      leave (inf, ms_gseen s, ms_calls s)
    else
      seen <- set_nth (ms_seen s) (ms_pos s) 1 ;;
      gseen <- set_nth (ms_gseen s) (ms_pos s) 1 ;;
      i <- get module (464 + ms_pos s * 2) ;;
      if i =? 255 then
        pos <- get module (465 + ms_pos s * 2) ;;
        continue_ (mkMptSong (ms_inf s) gseen seen pos (ms_calls s) (ms_m s))
      else
        p <- mpt_patterns module addrToOffset (ms_pos s) 4 (m_off (ms_m s)) (m_cnt (ms_m s)) ;;
        match p with
        | None => leave (ms_inf s, gseen, ms_calls s)
        | Some (offs, cnt) =>
          let seen := mark_seen songLen seen in
          rows <- get module 462 ;;
          '(m, calls) <- loop fuel (mpt_row_step fuel module)
             (mkMpt (m_tempo (ms_m s)) rows offs (m_blank (ms_m s)) cnt, ms_calls s) ;;
          continue_ (mkMptSong (ms_inf s) gseen seen (ms_pos s + 1) calls m)
        end
  else leave (ms_inf s, ms_gseen s, ms_calls s).

(* asap.c:3066-3136 ASAPInfo_ParseMptSong *)
Definition parse_mpt_song (fuel : nat) (module : list Z) (inf : info) (gseen : list Z) (songLen pos : Z) : outcome (info * list Z) :=
  a <- get_word module 2 ;;
  tempo <- get module 463 ;;
  '(inf, gseen, calls) <- loop fuel (mpt_song_step fuel module songLen (a - 6))
     (mkMptSong inf gseen (repeat 0 256) pos 0 (mkMpt tempo 0 (repeat (-1) 4) (repeat 0 4) (repeat (-1) 4))) ;;
  if 0 <? calls then inf <- add_song inf calls ;; Ok (inf, gseen) else Ok (inf, gseen).

(* asap.c:3153-3158, 3367-3372: the loop over positions, with the parser of one song as argument *)
Fixpoint songs_by_pos (parse : info -> list Z -> Z -> outcome (info * list Z)) (inf : info) (gseen : list Z) (n : nat) (pos : Z) : outcome info :=
  match n with
  | O => Ok inf
  | S n =>
    if i_songs inf <? 32 then
      v <- get gseen pos ;;
      '(inf, gseen) <- (if v =? 0 then inf <- set_song_pos pos inf ;; parse inf gseen pos else Ok (inf, gseen)) ;;
      songs_by_pos parse inf gseen n (pos + 1)
    else Ok inf
  end.

(* asap.c:3138-3162 ASAPInfo_ParseMpt *)
Definition parse_mpt (fuel : nat) (inf : info) (module : list Z) : outcome info :=
  if len module <? 464 then Fail
  else
    inf <- parse_module (set_type MPT inf) module ;;
    a <- get_word module 2 ;;
    let track0Addr := a + 458 in
    lo0 <- get module 454 ;;
    hi0 <- get module 458 ;;
    if negb (lo0 + Z.shiftl hi0 8 =? track0Addr) then Fail
    else
      lo1 <- get module 455 ;;
      hi1 <- get module 459 ;;
      let songLen := Z.shiftr (lo1 + Z.shiftl hi1 8 - track0Addr) 1 in
      if 254 <? songLen then Fail
      else
        inf <- songs_by_pos (fun inf gseen pos => parse_mpt_song fuel module inf gseen songLen pos)
                 (set_songs 0 inf) (repeat 0 256) (Z.to_nat songLen) 0 ;;
        if i_songs inf =? 0 then Fail else Ok inf.

(* ------------------------------------------------------------------ *)
(* RMT                                                                 *)

(* asap.c:3181 RMT_VOLUME_SILENT *)
Definition rmt_volume_silent : list Z := [16; 8; 4; 3; 2; 2; 2; 2; 1; 1; 1; 1; 1; 1; 1; 1].

(* asap.c:3186-3189, 3207-3210: volume of a frame of the instrument *)
Definition rmt_volume (module : list Z) (instrument index : Z) (onExtraPokey : bool) : outcome Z :=
  vol <- get module (instrument + index) ;;
  Ok (Z.land (if onExtraPokey then Z.shiftr vol 4 else vol) 15).

(* asap.c:3185-3194: the do-while over the envelope; state (index, playerCall, playerCalls) *)
Definition rmt_envelope_step (module : list Z) (instrument indexEnd volume : Z) (extra : bool) (s : Z * Z * Z)
  : outcome (Z * Z * Z + Z * Z * Z) :=
  let '(index, call, calls) := s in
  vol <- rmt_volume module instrument index extra ;;
  silent <- get rmt_volume_silent volume ;;
  let calls := if silent <=? vol then call + 1 else calls in
  let s := (index + 3, call + 1, calls) in
  if index + 3 <? indexEnd then continue_ s else leave s.

(* asap.c:3200-3222: the loop of the volume slide;
   state (index, playerCall, playerCalls, volumeSlide, silentLoop, volume) *)
Definition rmt_slide_step (module : list Z) (instrument indexEnd indexLoop depth volumeMin : Z) (extra : bool)
  (s : Z * Z * Z * Z * bool * Z) : outcome (Z * Z * Z * Z * bool * Z + Z) :=
  let '(index, call, calls, slide, silentLoop, volume) := s in
  if (indexEnd <=? index) && silentLoop then leave calls
  else
    let silentLoop := if indexEnd <=? index then true else silentLoop in
    let index := if indexEnd <=? index then indexLoop else index in
    vol <- rmt_volume module instrument index extra ;;
    silent <- get rmt_volume_silent volume ;;
    let calls := if silent <=? vol then call + 1 else calls in
    let silentLoop := if silent <=? vol then false else silentLoop in
    let slide := slide - depth in
    if slide <? 0 then
      let volume := volume - 1 in
      if volume <=? volumeMin then leave calls
      else continue_ (index + 3, call + 1, calls, slide + 256, silentLoop, volume)
    else continue_ (index + 3, call + 1, calls, slide, silentLoop, volume).

(* asap.c:3164-3224 ASAPInfo_GetRmtInstrumentFrames *)
Definition rmt_instrument_frames (fuel : nat) (module : list Z) (instrument volume volumeFrame : Z) (extra : bool) : outcome Z :=
  a <- get_word module 2 ;;
  let addrToOffset := a - 6 in
  t <- get_word module 14 ;;
  let instrument := t - addrToOffset + Z.shiftl instrument 1 in
  h <- get module (instrument + 1) ;;
  if h =? 0 then Ok 0
  else
    w <- get_word module instrument ;;
    let instrument := w - addrToOffset in
    perFrame <- get module 12 ;;
    let call := volumeFrame * perFrame in
    b0 <- get module instrument ;;
    let index := b0 + 1 + call * 3 in
    b2 <- get module (instrument + 2) ;;
    let indexEnd := b2 + 3 in
    indexLoop <- get module (instrument + 3) ;;
    if indexEnd <=? indexLoop then Ok 0
    else
      depth <- get module (instrument + 6) ;;
      volumeMin <- get module (instrument + 7) ;;
      '(index, call, calls) <-
        (if indexEnd <=? index then Ok (Z.rem (index - indexEnd) (indexEnd - indexLoop) + indexLoop, call, call)
         else loop fuel (rmt_envelope_step module instrument indexEnd volume extra) (index, call, call)) ;;
      if perFrame =? 0 then UB UbOverflow
      else if depth =? 0 then Ok (Z.quot calls perFrame)
      else
        calls <- loop fuel (rmt_slide_step module instrument indexEnd indexLoop depth volumeMin extra)
                   (index, call, calls, 128, false, volume) ;;
        Ok (Z.quot calls perFrame).

(* the variables of ASAPInfo_ParseRmtSong that a pattern row changes *)
Record rmt := mkRmt {
  r_tempo : Z; r_frames : Z; r_rows : Z;
  r_begin : list Z; r_off : list Z; r_blank : list Z;
  r_insNo : list Z; r_insFrame : list Z; r_volVal : list Z; r_volFrame : list Z
}.

(* asap.c:3272-3302: one iteration of the innermost loop for channel ch; state (rmt, patternOffset[ch]) *)
Definition rmt_note_step (module : list Z) (ch : Z) (s : rmt * Z) : outcome (rmt * Z + rmt * Z) :=
  let '(r, off) := s in
  i <- get module off ;;
  let off := off + 1 in
  if Z.land i 63 <? 62 then
    h <- get module off ;;
    let off := off + 1 in
    let i := i + Z.shiftl h 8 in
    '(insNo, insFrame) <-
      (if Z.land i 63 =? 61 then Ok (r_insNo r, r_insFrame r)
       else a <- set_nth (r_insNo r) ch (Z.shiftr i 10) ;; b <- set_nth (r_insFrame r) ch (r_frames r) ;; Ok (a, b)) ;;
    volVal <- set_nth (r_volVal r) ch (Z.land (Z.shiftr i 6) 15) ;;
    volFrame <- set_nth (r_volFrame r) ch (r_frames r) ;;
    leave (mkRmt (r_tempo r) (r_frames r) (r_rows r) (r_begin r) (r_off r) (r_blank r) insNo insFrame volVal volFrame, off)
  else if i =? 62 then
    b <- get module off ;;
    blank <- set_nth (r_blank r) ch b ;;
    leave (mkRmt (r_tempo r) (r_frames r) (r_rows r) (r_begin r) (r_off r) blank (r_insNo r) (r_insFrame r) (r_volVal r) (r_volFrame r), off + 1)
  else if Z.land i 63 =? 62 then
    blank <- set_nth (r_blank r) ch (Z.shiftr i 6) ;;
    leave (mkRmt (r_tempo r) (r_frames r) (r_rows r) (r_begin r) (r_off r) blank (r_insNo r) (r_insFrame r) (r_volVal r) (r_volFrame r), off)
  else if Z.land i 191 =? 63 then
    t <- get module off ;;
    continue_ (mkRmt t (r_frames r) (r_rows r) (r_begin r) (r_off r) (r_blank r) (r_insNo r) (r_insFrame r) (r_volVal r) (r_volFrame r), off + 1)
  else if i =? 191 then
    d <- get module off ;;
    b <- get (r_begin r) ch ;;
    continue_ (r, b + d)
  else leave (mkRmt (r_tempo r) (r_frames r) (-1) (r_begin r) (r_off r) (r_blank r) (r_insNo r) (r_insFrame r) (r_volVal r) (r_volFrame r), off).

(* asap.c:3269-3305: channels ch, ... (n of them) of one row *)
Fixpoint rmt_channels (fuel : nat) (module : list Z) (n : nat) (ch : Z) (r : rmt) : outcome rmt :=
  match n with
  | O => Ok r
  | S n =>
    b <- get (r_blank r) ch ;;
    blank <- set_nth (r_blank r) ch (b - 1) ;;
    let r := mkRmt (r_tempo r) (r_frames r) (r_rows r) (r_begin r) (r_off r) blank (r_insNo r) (r_insFrame r) (r_volVal r) (r_volFrame r) in
    if 0 <? b - 1 then rmt_channels fuel module n (ch + 1) r
    else
      off <- get (r_off r) ch ;;
      '(r, off) <- loop fuel (rmt_note_step module ch) (r, off) ;;
      offs <- set_nth (r_off r) ch off ;;
      let r := mkRmt (r_tempo r) (r_frames r) (r_rows r) (r_begin r) offs (r_blank r) (r_insNo r) (r_insFrame r) (r_volVal r) (r_volFrame r) in
      if r_rows r <? 0 then Ok r else rmt_channels fuel module n (ch + 1) r
  end.

(* asap.c:3268-3308: one row *)
Definition rmt_row_step (fuel : nat) (module : list Z) (channels : nat) (r : rmt) : outcome (rmt + rmt) :=
  let rows := r_rows r - 1 in
  let r := mkRmt (r_tempo r) (r_frames r) rows (r_begin r) (r_off r) (r_blank r) (r_insNo r) (r_insFrame r) (r_volVal r) (r_volFrame r) in
  if 0 <=? rows then
    r <- rmt_channels fuel module channels 0 r ;;
    continue_ (mkRmt (r_tempo r) (if 0 <=? r_rows r then r_frames r + r_tempo r else r_frames r) (r_rows r)
       (r_begin r) (r_off r) (r_blank r) (r_insNo r) (r_insFrame r) (r_volVal r) (r_volFrame r))
  else leave r.

(* asap.c:3254-3264: set up the patterns of channels ch, ... (n of them); None: "return" *)
Fixpoint rmt_patterns (module : list Z) (line lo hi addrToOffset : Z) (n : nat) (ch : Z) (r : rmt) : outcome (option rmt) :=
  match n with
  | O => Ok (Some r)
  | S n =>
    p <- get module (line + ch) ;;
    if p =? 255 then
      blank <- set_nth (r_blank r) ch 256 ;;
      rmt_patterns module line lo hi addrToOffset n (ch + 1)
        (mkRmt (r_tempo r) (r_frames r) (r_rows r) (r_begin r) (r_off r) blank (r_insNo r) (r_insFrame r) (r_volVal r) (r_volFrame r))
    else
      l <- get module (lo + p) ;;
      h <- get module (hi + p) ;;
      let off := l + Z.shiftl h 8 - addrToOffset in
      bg <- set_nth (r_begin r) ch off ;;
      offs <- set_nth (r_off r) ch off ;;
      if off <? 0 then Ok None
      else
        blank <- set_nth (r_blank r) ch 0 ;;
        rmt_patterns module line lo hi addrToOffset n (ch + 1)
          (mkRmt (r_tempo r) (r_frames r) (r_rows r) bg offs blank (r_insNo r) (r_insFrame r) (r_volVal r) (r_volFrame r))
  end.

(* the variables of ASAPInfo_ParseRmtSong *)
Record rmt_song := mkRmtSong { rs_inf : info; rs_gseen : list Z; rs_seen : list Z; rs_pos : Z; rs_r : rmt }.

(* asap.c:3242-3310: one iteration; the result is (info, globalSeen, Some rmt), or None for "return" *)
Definition rmt_song_step (fuel : nat) (module : list Z) (songLen posShift songOffset lo hi addrToOffset : Z) (s : rmt_song)
  : outcome (rmt_song + info * list Z * option rmt) :=
  if rs_pos s <? songLen then
    v <- get (rs_seen s) (rs_pos s) ;;
    if negb (v =? 0) then
      inf <- (if negb (v =? 1) then set_song_loop true (rs_inf s) else Ok (rs_inf s)) ;;
      leave (inf, rs_gseen s, Some (rs_r s))
    else
      seen <- set_nth (rs_seen s) (rs_pos s) 1 ;;
      gseen <- set_nth (rs_gseen s) (rs_pos s) 1 ;;
      let line := songOffset + Z.shiftl (rs_pos s) posShift in
      c <- get module line ;;
      if c =? 254 then
        pos <- get module (line + 1) ;;
        continue_ (mkRmtSong (rs_inf s) gseen seen pos (rs_r s))
      else
        p <- rmt_patterns module line lo hi addrToOffset (Z.to_nat (Z.shiftl 1 posShift)) 0 (rs_r s) ;;
        match p with
        | None => leave (rs_inf s, gseen, None)
        | Some r =>
          let seen := mark_seen songLen seen in
          rows <- get module 10 ;;
          r <- loop fuel (rmt_row_step fuel module (Z.to_nat (Z.shiftl 1 posShift)))
            (mkRmt (r_tempo r) (r_frames r) rows (r_begin r) (r_off r) (r_blank r) (r_insNo r) (r_insFrame r) (r_volVal r) (r_volFrame r)) ;;
          continue_ (mkRmtSong (rs_inf s) gseen seen (rs_pos s + 1) r)
        end
  else leave (rs_inf s, rs_gseen s, Some (rs_r s)).

(* asap.c:3311-3317: the longest-sounding channel; channels ch, ... (n of them) *)
Fixpoint rmt_sounding (fuel : nat) (module : list Z) (r : rmt) (n : nat) (ch longest : Z) : outcome Z :=
  match n with
  | O => Ok longest
  | S n =>
    frame <- get (r_insFrame r) ch ;;
    no <- get (r_insNo r) ch ;;
    vv <- get (r_volVal r) ch ;;
    vf <- get (r_volFrame r) ch ;;
    d <- rmt_instrument_frames fuel module no vv (vf - frame) (4 <=? ch) ;;
    rmt_sounding fuel module r n (ch + 1) (if longest <? frame + d then frame + d else longest)
  end.

(* asap.c:3226-3325 ASAPInfo_ParseRmtSong *)
Definition parse_rmt_song (fuel : nat) (module : list Z) (inf : info) (gseen : list Z) (songLen posShift pos : Z) : outcome (info * list Z) :=
  a <- get_word module 2 ;;
  let addrToOffset := a - 6 in
  tempo <- get module 11 ;;
  so <- get_word module 20 ;;
  lo <- get_word module 16 ;;
  hi <- get_word module 18 ;;
  '(inf, gseen, r) <- loop fuel
     (rmt_song_step fuel module songLen posShift (so - addrToOffset) (lo - addrToOffset) (hi - addrToOffset) addrToOffset)
     (mkRmtSong inf gseen (repeat 0 256) pos
        (mkRmt tempo 0 0 (repeat (-1) 8) (repeat (-1) 8) (repeat (-1) 8) (repeat 0 8) (repeat 0 8) (repeat 0 8) (repeat 0 8))) ;;
  match r with
  | None => Ok (inf, gseen)
  | Some r =>
    instrumentFrames <- rmt_sounding fuel module r (Z.to_nat (Z.shiftl 1 posShift)) 0 0 ;;
    '(inf, frames) <-
      (if instrumentFrames <? r_frames r then
         inf <- (if 100 <? r_frames r - instrumentFrames then set_song_loop false inf else Ok inf) ;;
         Ok (inf, instrumentFrames)
       else Ok (inf, r_frames r)) ;;
    if 0 <? frames then inf <- add_song inf frames ;; Ok (inf, gseen) else Ok (inf, gseen)
  end.

(* asap.c:3327-3334 ASAPInfo_ValidateRmt; the short-circuit reads are all inside 48 bytes *)
Definition validate_rmt (module : list Z) : outcome bool :=
  if len module <? 48 then Ok false
  else
    b <- has_string_at module 6 (str "RMT") ;;
    if b : bool then v <- get module 13 ;; Ok (v =? 1) else Ok false.

(* asap.c:3377-3384: the title; [n] counts the characters left in the 127-byte array *)
Fixpoint rmt_title (module : list Z) (n : nat) (i : Z) : outcome (list Z) :=
  match n with
  | O => Ok []
  | S n =>
    if i <? len module then
      c <- get module i ;;
      if c =? 0 then Ok []
      else t <- rmt_title module n (i + 1) ;; Ok ((if is_valid_char c then c else 32) :: t)
    else Ok []
  end.

(* asap.c:3336-3387 ASAPInfo_ParseRmt *)
Definition parse_rmt (fuel : nat) (inf : info) (module : list Z) : outcome info :=
  v <- validate_rmt module ;;
  if negb v then Fail
  else
    m9 <- get module 9 ;;
    '(inf, posShift) <-
      (if m9 =? 52 then Ok (inf, 2) else if m9 =? 56 then Ok (set_channels 2 inf, 3) else Fail) ;;
    perFrame <- get module 12 ;;
    if (perFrame <? 1) || (4 <? perFrame) then Fail
    else
      inf <- parse_module (set_type RMT inf) module ;;
      last <- get_word module 4 ;;
      song <- get_word module 20 ;;
      let blockLen := last + 1 - i_music inf in
      let songLen := last + 1 - song in
      extra <- (if (posShift =? 3) && negb (Z.land songLen 4 =? 0)
                then c <- get module (6 + blockLen - 4) ;; Ok (c =? 254) else Ok false) ;;
      let songLen := Z.shiftr (if extra : bool then songLen + 4 else songLen) posShift in
      if 256 <=? songLen then Fail
      else
        inf <- songs_by_pos (fun inf gseen pos => parse_rmt_song fuel module inf gseen songLen posShift pos)
                 (set_songs 0 inf) (repeat 0 256) (Z.to_nat songLen) 0 ;;
        let inf := set_player 1536 (set_fastplay (Z.quot 312 perFrame) inf) in
        if i_songs inf =? 0 then Fail
        else t <- rmt_title module 127 (10 + blockLen) ;; Ok (set_title t inf).

(* ------------------------------------------------------------------ *)
(* TMC                                                                 *)

(* the variables of ASAPInfo_ParseTmcSong (TM2: frames is playerCalls) that a pattern row changes *)
Record tmc := mkTmc { t_tempo : Z; t_frames : Z; t_rows : Z; t_off : list Z; t_blank : list Z }.

(* asap.c:3406-3435: one iteration of the innermost loop; state (offset, tempo, patternRows, blank) *)
Definition tmc_note_step (module : list Z) (s : Z * Z * Z * Z) : outcome (Z * Z * Z * Z + Z * Z * Z * Z) :=
  let '(off, tempo, rows, blank) := s in
  i <- get module off ;;
  let off := off + 1 in
  if i <? 64 then leave (off + 1, tempo, rows, blank)
  else if i =? 64 then
    i <- get module off ;;
    let off := off + 1 in
    let '(tempo, rows) := if Z.land i 127 =? 0 then (tempo, 0) else (Z.land i 127 + 1, rows) in
    leave (if 128 <=? i then off + 1 else off, tempo, rows, blank)
  else if i <? 128 then
    i <- get module off ;;
    let off := off + 1 in
    let i := Z.land i 127 in
    let '(tempo, rows) := if i =? 0 then (tempo, 0) else (i + 1, rows) in
    leave (off + 1, tempo, rows, blank)
  else if i <? 192 then continue_ (off, tempo, rows, blank)
  else leave (off, tempo, rows, i - 191).

(* asap.c:3403-3436, 3545-3588: channels n-1, ..., 0 of one row, given the innermost loop *)
Fixpoint tmc_channels (notes : Z * Z * Z * Z -> outcome (Z * Z * Z * Z)) (n : nat) (t : tmc) : outcome tmc :=
  match n with
  | O => Ok t
  | S k =>
    let ch := Z.of_nat k in
    b <- get (t_blank t) ch ;;
    t <- (if 0 <=? b - 1 then
            blank <- set_nth (t_blank t) ch (b - 1) ;;
            Ok (mkTmc (t_tempo t) (t_frames t) (t_rows t) (t_off t) blank)
          else
            off <- get (t_off t) ch ;;
            '(off, tempo, rows, blank) <- notes (off, t_tempo t, t_rows t, b - 1) ;;
            offs <- set_nth (t_off t) ch off ;;
            blanks <- set_nth (t_blank t) ch blank ;;
            Ok (mkTmc tempo (t_frames t) rows offs blanks)) ;;
    tmc_channels notes k t
  end.

(* asap.c:3402-3438, 3544-3590: one row *)
Definition tmc_row_step (notes : Z * Z * Z * Z -> outcome (Z * Z * Z * Z)) (t : tmc) : outcome (tmc + tmc) :=
  let rows := t_rows t - 1 in
  let t := mkTmc (t_tempo t) (t_frames t) rows (t_off t) (t_blank t) in
  if 0 <=? rows then
    t <- tmc_channels notes 8 t ;;
    continue_ (mkTmc (t_tempo t) (t_frames t + t_tempo t) (t_rows t) (t_off t) (t_blank t))
  else leave t.

(* asap.c:3397-3401, 3539-3543: set up the patterns; channels n-1, ..., 0; [base] is 437 or 917,
   [lo] and [hi] the offsets of the pattern address tables *)
Fixpoint tmc_patterns (module : list Z) (base lo hi addrToOffset pos : Z) (n : nat) (offs blanks : list Z) : outcome (list Z * list Z) :=
  match n with
  | O => Ok (offs, blanks)
  | S k =>
    let ch := Z.of_nat k in
    pat <- get module (base + pos - 2 * ch) ;;
    l <- get module (lo + pat) ;;
    h <- get module (hi + pat) ;;
    offs <- set_nth offs ch (l + Z.shiftl h 8 - addrToOffset) ;;
    blanks <- set_nth blanks ch 0 ;;
    tmc_patterns module base lo hi addrToOffset pos k offs blanks
  end.

(* asap.c:3396-3440: one position; state (pos, tmc) *)
Definition tmc_song_step (fuel : nat) (module : list Z) (addrToOffset : Z) (s : Z * tmc) : outcome (Z * tmc + Z * tmc) :=
  let '(pos, t) := s in
  c <- get module (437 + pos) ;;
  if c <? 128 then
    '(offs, blanks) <- tmc_patterns module 437 166 294 addrToOffset pos 8 (t_off t) (t_blank t) ;;
    t <- loop fuel (tmc_row_step (fun s => loop fuel (tmc_note_step module) s))
           (mkTmc (t_tempo t) (t_frames t) 64 offs blanks) ;;
    continue_ (pos + 16, t)
  else leave (pos, t).

(* asap.c:3389-3444 ASAPInfo_ParseTmcSong *)
Definition parse_tmc_song (fuel : nat) (module : list Z) (inf : info) (pos : Z) : outcome info :=
  a <- get_word module 2 ;;
  tempo <- get module 36 ;;
  '(pos, t) <- loop fuel (tmc_song_step fuel module (a - 6)) (pos, mkTmc (tempo + 1) 0 0 (repeat (-1) 8) (repeat (-1) 8)) ;;
  c <- get module (436 + pos) ;;
  inf <- (if c <? 128 then set_song_loop true inf else Ok inf) ;;
  add_song inf (t_frames t).

(* asap.c:3448-3452: the last non-space character; [n] = lastOffset - moduleOffset + 1 *)
Fixpoint tmc_title_last (module : list Z) (moduleOffset : Z) (n : nat) : outcome (option nat) :=
  match n with
  | O => Ok None
  | S k =>
    c <- get module (moduleOffset + Z.of_nat k) ;;
    if c =? 32 then tmc_title_last module moduleOffset k else Ok (Some n)
  end.

(* asap.c:3459-3482: one character *)
Definition tmc_title_char (c : Z) : Z :=
  let c := Z.land c 127 in
  if c =? 20 then 42
  else if (c =? 1) || (c =? 3) || (c =? 5) || (c =? 12) || (c =? 14) || (c =? 15) || (c =? 19) then c + 96
  else if (c =? 24) || (c =? 26) then 122
  else if is_valid_char c then c else 32.

(* "title[titleLen++] = c" for the 127-byte array *)
Definition put_title (title : list Z) (c : Z) : outcome (list Z) :=
  if 127 <=? len title then UB UbWrite else Ok (title ++ [u8 c]).

(* asap.c:3458-3483: copy [n] characters *)
Fixpoint tmc_title_copy (module : list Z) (moduleOffset : Z) (n : nat) (title : list Z) : outcome (list Z) :=
  match n with
  | O => Ok title
  | S n =>
    c <- get module moduleOffset ;;
    title <- put_title title (tmc_title_char c) ;;
    tmc_title_copy module (moduleOffset + 1) n title
  end.

(* asap.c:3446-3485 ASAPInfo_ParseTmcTitle; the list is title[0..titleLen) *)
Definition parse_tmc_title (title : list Z) (module : list Z) (moduleOffset : Z) : outcome (list Z) :=
  l <- tmc_title_last module moduleOffset 30 ;;
  match l with
  | None => Ok title
  | Some n =>
    title <- (if 0 <? len title then
                t <- put_title title 32 ;; t <- put_title t 124 ;; put_title t 32
              else Ok title) ;;
    tmc_title_copy module moduleOffset n title
  end.

(* asap.c:3495-3499: the first instrument with an address; [n] counts the ones left *)
Fixpoint tmc_first_instrument (module : list Z) (n : nat) (i : Z) : outcome Z :=
  match n with
  | O => Fail
  | S n => c <- get module (102 + i) ;; if c =? 0 then tmc_first_instrument module n (i + 1) else Ok i
  end.

(* asap.c:3503-3508: "do { if (lastPos <= 0) return false; lastPos -= 16; } while (...)" *)
Definition tmc_last_step (module : list Z) (lastPos : Z) : outcome (Z + Z) :=
  if lastPos <=? 0 then Fail
  else
    c <- get module (437 + (lastPos - 16)) ;;
    if 128 <=? c then continue_ (lastPos - 16) else leave (lastPos - 16).

(* asap.c:3511-3513: the loop over positions; state (i, info) *)
Definition tmc_songs_step (fuel : nat) (module : list Z) (lastPos : Z) (s : Z * info) : outcome (Z * info + info) :=
  let '(i, inf) := s in
  if (i <? lastPos) && (i_songs inf <? 32) then
    c <- get module (437 + i) ;;
    inf <- (if 128 <=? c then parse_tmc_song fuel module inf (i + 16) else Ok inf) ;;
    continue_ (i + 16, inf)
  else leave inf.

(* asap.c:3487-3522 ASAPInfo_ParseTmc *)
Definition parse_tmc (fuel : nat) (inf : info) (module : list Z) : outcome info :=
  if len module <? 464 then Fail
  else
    inf <- parse_module (set_type TMC inf) module ;;
    let inf := set_channels 2 inf in
    i <- tmc_first_instrument module 64 0 ;;
    h <- get module (102 + i) ;;
    l <- get module (38 + i) ;;
    a <- get_word module 2 ;;
    let lastPos := Z.shiftl h 8 + l - a - 432 in
    if len module <=? 437 + lastPos then Fail
    else
      lastPos <- loop fuel (tmc_last_step module) lastPos ;;
      inf <- parse_tmc_song fuel module (set_songs 0 inf) 0 ;;
      inf <- loop fuel (tmc_songs_step fuel module lastPos) (0, inf) ;;
      i <- get module 37 ;;
      if (i <? 1) || (4 <? i) then Fail
      else
        t <- parse_tmc_title [] module 6 ;;
        Ok (set_title t (set_fastplay (Z.quot 312 i) inf)).

(* ------------------------------------------------------------------ *)
(* TM2                                                                 *)

(* asap.c:3548-3587: one iteration of the innermost loop; state (offset, tempo, patternRows, blank) *)
Definition tm2_note_step (module : list Z) (s : Z * Z * Z * Z) : outcome (Z * Z * Z * Z + Z * Z * Z * Z) :=
  let '(off, tempo, rows, blank) := s in
  i <- get module off ;;
  let off := off + 1 in
  if i =? 0 then leave (off + 1, tempo, rows, blank)
  else if i <? 64 then
    c <- get module off ;;
    let off := off + 1 in
    leave (if 128 <=? c then off + 1 else off, tempo, rows, blank)
  else if i <? 128 then leave (off + 1, tempo, rows, blank)
  else if i =? 128 then b <- get module off ;; leave (off + 1, tempo, rows, b)
  else if i <? 192 then leave (off, tempo, rows, blank)
  else if i <? 208 then continue_ (off, i - 191, rows, blank)
  else if i <? 224 then leave (off + 1, tempo, rows, blank)
  else if i <? 240 then leave (off + 2, tempo, rows, blank)
  else if i <? 255 then leave (off, tempo, rows, i - 240)
  else leave (off, tempo, rows, 64).

(* asap.c:3531-3592: one position; state (info, pos, tmc) *)
Definition tm2_song_step (fuel : nat) (module : list Z) (addrToOffset : Z) (s : info * Z * tmc) : outcome (info * Z * tmc + info * tmc) :=
  let '(inf, pos, t) := s in
  rows <- get module (918 + pos) ;;
  if rows =? 0 then leave (inf, t)
  else if 128 <=? rows then inf <- set_song_loop true inf ;; leave (inf, t)
  else
    '(offs, blanks) <- tmc_patterns module 917 262 518 addrToOffset pos 8 (t_off t) (t_blank t) ;;
    t <- loop fuel (tmc_row_step (fun s => loop fuel (tm2_note_step module) s))
           (mkTmc (t_tempo t) (t_frames t) rows offs blanks) ;;
    continue_ (inf, pos + 17, t).

(* asap.c:3524-3594 ASAPInfo_ParseTm2Song *)
Definition parse_tm2_song (fuel : nat) (module : list Z) (inf : info) (pos : Z) : outcome info :=
  a <- get_word module 2 ;;
  tempo <- get module 36 ;;
  '(inf, t) <- loop fuel (tm2_song_step fuel module (a - 6)) (inf, pos, mkTmc (tempo + 1) 0 0 (repeat (-1) 8) (repeat (-1) 8)) ;;
  add_song inf (t_frames t).

(* asap.c:3610-3620: the lowest non-zero address in a table *)
Fixpoint tm2_lowest (module : list Z) (lo hi : Z) (n : nat) (i lastPos : Z) : outcome Z :=
  match n with
  | O => Ok lastPos
  | S n =>
    l <- get module (lo + i) ;;
    h <- get module (hi + i) ;;
    let a := l + Z.shiftl h 8 in
    tm2_lowest module lo hi n (i + 1) (if negb (a =? 0) && (a <? lastPos) then a else lastPos)
  end.

(* asap.c:3624-3631: "do ... while (c == 0 || c >= 128)" *)
Definition tm2_last_step (module : list Z) (lastPos : Z) : outcome (Z + Z) :=
  if lastPos <=? 0 then Fail
  else
    c <- get module (918 + (lastPos - 17)) ;;
    if (c =? 0) || (128 <=? c) then continue_ (lastPos - 17) else leave (lastPos - 17).

(* asap.c:3634-3638: the loop over positions *)
Definition tm2_songs_step (fuel : nat) (module : list Z) (lastPos : Z) (s : Z * info) : outcome (Z * info + info) :=
  let '(i, inf) := s in
  if (i <? lastPos) && (i_songs inf <? 32) then
    c <- get module (918 + i) ;;
    inf <- (if (c =? 0) || (128 <=? c) then parse_tm2_song fuel module inf (i + 17) else Ok inf) ;;
    continue_ (i + 17, inf)
  else leave inf.

(* asap.c:3596-3645 ASAPInfo_ParseTm2 *)
Definition parse_tm2 (fuel : nat) (inf : info) (module : list Z) : outcome info :=
  if len module <? 932 then Fail
  else
    inf <- parse_module (set_type TM2 inf) module ;;
    i <- get module 37 ;;
    if (i <? 1) || (4 <? i) then Fail
    else
      let inf := set_player 2048 (set_fastplay (Z.quot 312 i) inf) in
      st <- get module 31 ;;
      let inf := if st =? 0 then inf else set_channels 2 inf in
      lastPos <- tm2_lowest module 134 774 128 0 65535 ;;
      lastPos <- tm2_lowest module 262 518 256 0 lastPos ;;
      a <- get_word module 2 ;;
      let lastPos := lastPos - (a + 896) in
      if len module <=? 902 + lastPos then Fail
      else
        lastPos <- loop fuel (tm2_last_step module) lastPos ;;
        inf <- parse_tm2_song fuel module (set_songs 0 inf) 0 ;;
        inf <- loop fuel (tm2_songs_step fuel module lastPos) (0, inf) ;;
        t <- parse_tmc_title [] module 39 ;;
        t <- parse_tmc_title t module 71 ;;
        t <- parse_tmc_title t module 103 ;;
        Ok (set_title t inf).

(* ------------------------------------------------------------------ *)
(* FC                                                                  *)

(* asap.c:3647-3654 ASAPInfo_AfterFF; Fail for -1 *)
Definition after_ff_step (module : list Z) (o : Z) : outcome (Z + Z) :=
  if o <? len module then
    c <- get module o ;;
    if c =? 255 then leave (o + 1) else continue_ (o + 1)
  else Fail.

Definition after_ff (fuel : nat) (module : list Z) (o : Z) : outcome Z := loop fuel (after_ff_step module) o.

(* asap.c:3656-3659 ASAPInfo_GetFcTrackCommand *)
Definition fc_track_command (module : list Z) (trackPos : list Z) (n : Z) : outcome Z :=
  p <- get trackPos n ;; get module (3 + Z.shiftl n 8 + p).

(* asap.c:3661-3678 ASAPInfo_IsFcSongEnd; voices n, ... (k of them) *)
Fixpoint is_fc_song_end (module : list Z) (trackPos : list Z) (k : nat) (n : Z) (allLoop : bool) : outcome bool :=
  match k with
  | O => Ok allLoop
  | S k =>
    p <- get trackPos n ;;
    if 256 <=? p then Ok true
    else
      c <- fc_track_command module trackPos n ;;
      if c =? 254 then Ok true
      else if c =? 255 then is_fc_song_end module trackPos k (n + 1) allLoop
      else is_fc_song_end module trackPos k (n + 1) false
  end.

(* asap.c:3680-3687 ASAPInfo_ValidateFc *)
Definition validate_fc (module : list Z) : outcome bool :=
  if len module <? 899 then Ok false
  else
    a <- get module 0 ;;
    if negb (a =? 38) then Ok false else b <- get module 1 ;; Ok (b =? 35).

(* the variables of one voice and the info *)
Record fc := mkFc { f_inf : info; f_track : list Z; f_delay : list Z; f_note : list Z; f_pat : list Z }.

(* asap.c:3724-3751: one iteration of "while (trackPos[n] < 256)" for voice n *)
Definition fc_voice_step (module : list Z) (patternOffsets : list Z) (n : Z) (f : fc) : outcome (fc + fc) :=
  tp <- get (f_track f) n ;;
  if tp <? 256 then
    cmd <- fc_track_command module (f_track f) n ;;
    if cmd <? 64 then
      po <- get patternOffsets cmd ;;
      pp <- get (f_pat f) n ;;
      pcmd <- get module (po + pp) ;;
      pat <- set_nth (f_pat f) n (pp + 1) ;;
      if pcmd <? 64 then
        nd <- get (f_note f) n ;;
        delay <- set_nth (f_delay f) n nd ;;
        leave (mkFc (f_inf f) (f_track f) delay (f_note f) pat)
      else if pcmd <? 96 then
        note <- set_nth (f_note f) n (pcmd - 64) ;;
        continue_ (mkFc (f_inf f) (f_track f) (f_delay f) note pat)
      else if pcmd =? 255 then
        delay <- set_nth (f_delay f) n 0 ;;
        note <- set_nth (f_note f) n 0 ;;
        pat <- set_nth pat n 0 ;;
        track <- set_nth (f_track f) n (tp + 1) ;;
        continue_ (mkFc (f_inf f) track delay note pat)
      else continue_ (mkFc (f_inf f) (f_track f) (f_delay f) (f_note f) pat)
    else if cmd =? 64 then
      track <- set_nth (f_track f) n (tp + 2) ;;
      continue_ (mkFc (f_inf f) track (f_delay f) (f_note f) (f_pat f))
    else if cmd =? 254 then
      inf <- set_song_loop false (f_inf f) ;;
      leave (mkFc inf (f_track f) (f_delay f) (f_note f) (f_pat f))
    else if cmd =? 255 then leave f
    else
      track <- set_nth (f_track f) n (tp + 1) ;;
      continue_ (mkFc (f_inf f) track (f_delay f) (f_note f) (f_pat f))
  else leave f.

(* asap.c:3719-3752: voices n, ... (k of them) *)
Fixpoint fc_voices (fuel : nat) (module : list Z) (patternOffsets : list Z) (k : nat) (n : Z) (f : fc) : outcome fc :=
  match k with
  | O => Ok f
  | S k =>
    c <- fc_track_command module (f_track f) n ;;
    f <- (if c =? 255 then Ok f
          else
            d <- get (f_delay f) n ;;
            delay <- set_nth (f_delay f) n (d - 1) ;;
            let f := mkFc (f_inf f) (f_track f) delay (f_note f) (f_pat f) in
            if 0 <? d then Ok f else loop fuel (fc_voice_step module patternOffsets n) f) ;;
    fc_voices fuel module patternOffsets k (n + 1) f
  end.

(* asap.c:3718-3756: "while (!IsFcSongEnd)" *)
Definition fc_play_step (fuel : nat) (module : list Z) (patternOffsets : list Z) (s : fc * Z) : outcome (fc * Z + fc * Z) :=
  let '(f, calls) := s in
  e <- is_fc_song_end module (f_track f) 3 0 true ;;
  if e : bool then leave (f, calls)
  else
    f <- fc_voices fuel module patternOffsets 3 0 f ;;
    e <- is_fc_song_end module (f_track f) 3 0 true ;;
    if e : bool then leave (f, calls)
    else m <- get module 2 ;; continue_ (f, calls + m).

(* asap.c:3757-3764: the position after the song; voices n, ... (k of them) *)
Fixpoint fc_next_pos (f : fc) (k : nat) (n pos : Z) : outcome Z :=
  match k with
  | O => Ok pos
  | S k =>
    t <- get (f_track f) n ;;
    p <- get (f_pat f) n ;;
    let nx := if 0 <? p then t + 1 else t in
    fc_next_pos f k (n + 1) (if pos <? nx then nx else pos)
  end.

(* asap.c:3709-3768: one song; state (pos, info) *)
Definition fc_song_step (fuel : nat) (module : list Z) (patternOffsets : list Z) (s : Z * info) : outcome (Z * info + info) :=
  let '(pos, inf) := s in
  if (pos <? 256) && (i_songs inf <? 32) then
    inf <- set_song_loop true inf ;;
    '(f, calls) <- loop fuel (fc_play_step fuel module patternOffsets)
       (mkFc inf (repeat pos 3) (repeat 0 3) (repeat 0 3) (repeat 0 3), 0) ;;
    pos <- fc_next_pos f 3 0 (-1) ;;
    let pos := pos + 1 in
    inf <- (if pos <=? 256 then add_song (f_inf f) calls else Ok (f_inf f)) ;;
    continue_ (pos, inf)
  else leave inf.

(* asap.c:3700-3704: offsets of the patterns, and the offset after them *)
Fixpoint fc_patterns (fuel : nat) (module : list Z) (n : nat) (o : Z) : outcome (list Z * Z) :=
  match n with
  | O => Ok ([], o)
  | S n => o' <- after_ff fuel module o ;; '(l, e) <- fc_patterns fuel module n o' ;; Ok (o :: l, e)
  end.

(* asap.c:3689-3770 ASAPInfo_ParseFc *)
Definition parse_fc (fuel : nat) (inf : info) (module : list Z) : outcome info :=
  v <- validate_fc module ;;
  if negb v then Fail
  else
    let inf := set_headerLen (-1) (set_songs 0 (set_music 2560 (set_player 1024 (set_type FC inf)))) in
    '(patternOffsets, o) <- fc_patterns fuel module 64 899 ;;
    _ <- fc_patterns fuel module 32 o ;;
    loop fuel (fc_song_step fuel module patternOffsets) (0, inf).

(* ------------------------------------------------------------------ *)
(* Load                                                                *)

(* asap.c:4035-4044 ASAPInfo_GuessPackedExt; Fail for -1 *)
Definition guess_packed_ext (module : list Z) : outcome Z :=
  s <- validate_sap module ;;
  if s : bool then Ok 7364979
  else
    f <- validate_fc module ;;
    if f : bool then Ok 2122598
    else r <- validate_rmt module ;; if r : bool then Ok 7630194 else Fail.

(* asap.c:4092-4125: choose the parser *)
Definition load_packed (fuel : nat) (ext : Z) (inf : info) (module : list Z) : outcome info :=
  if ext =? 7364979 then parse_sap inf module
  else if ext =? 6516067 then parse_cmc fuel CMC inf module
  else if ext =? 3370339 then parse_cmc fuel CM3 inf module
  else if ext =? 7499107 then parse_cmc fuel CMR inf module
  else if ext =? 7564643 then parse_cmc fuel CMS (set_channels 2 inf) module
  else if ext =? 6516068 then parse_cmc fuel CMC (set_fastplay 156 inf) module
  else if ext =? 7629924 then parse_dlt fuel inf module
  else if ext =? 7630957 then parse_mpt fuel inf module
  else if ext =? 6582381 then parse_mpt fuel (set_fastplay 156 inf) module
  else if ext =? 7630194 then parse_rmt fuel inf module
  else if (ext =? 6516084) || (ext =? 3698036) then parse_tmc fuel inf module
  else if ext =? 3304820 then parse_tm2 fuel inf module
  else if ext =? 2122598 then parse_fc fuel inf module
  else Fail.

(* asap.c:4046-4126 ASAPInfo_Load; [filename] is None for NULL.
   The state of [self] after a failure is not modelled. *)
Definition api_load (fuel : nat) (self : info) (filename : option (list Z)) (module : list Z) : outcome info :=
  '(name, ext) <-
    (match filename with
     | Some filename => name <- load_filename filename ;; Ok (name, get_packed_ext filename)
     | None => ext <- guess_packed_ext module ;; Ok ([], ext)
     end) ;;
  load_packed fuel ext (load_defaults (set_filename name self)) module.
