(* Model of class ASAPWriter (asapwriter.fu; asap.c:4629-5565): output window, primitive writers,
   SAP header, executables, title screen, native modules.  FlashPack is in FlashPackModel.v and
   ASAPWriter_Write itself in WriteModel.v.  The output array is assumed not to overlap the module. *)
From Coq Require Import String.
From Verif Require Import Base InfoModel Resources.

(* asap.c:4675-4679 ASAPWriter_TwoDigitsToString: the two bytes stored *)
Definition two_digits (value : Z) : list Z :=
  [u8 (48 + Z.quot value 10); u8 (48 + Z.rem value 10)].

(* asap.c:4681-4690 ASAPWriter_SecondsToString: the five bytes stored, or false *)
Definition seconds_to_string (value : Z) : outcome (list Z) :=
  if (value <? 0) || (6000000 <=? value) then Fail
  else
    let value := Z.quot value 1000 in
    Ok (two_digits (Z.quot value 60) ++ [58] ++ two_digits (Z.rem value 60)).

(* asap.c:4692-4706 ASAPWriter_DurationToString: result[0..return value) *)
Definition duration_to_string (value : Z) : list Z :=
  match seconds_to_string value with
  | Ok s =>
    let value := Z.rem value 1000 in
    if value =? 0 then s
    else
      let s := s ++ [46] ++ two_digits (Z.quot value 10) in
      let value := Z.rem value 10 in
      if value =? 0 then s else s ++ [u8 (48 + value)]
  | _ => []
  end.

(* ------------------------------------------------------------------ *)
(* The output window                                                   *)

(* asap.c:480-484 struct ASAPWriter; [w_out] is the whole array the caller passed *)
Record wstate := mkW { w_out : list Z; w_off : Z; w_end : Z }.

(* A function of the writer: returns its bool result and the new state. *)
Definition wr := wstate -> outcome (bool * wstate).

(* return true / return false *)
Definition wok : wr := fun w => Ok (true, w).
Definition wfail : wr := fun w => Ok (false, w).

(* "if (!f) return false; g" *)
Definition wseq (f g : wr) : wr :=
  fun w => '(b, w') <- f w ;; if b : bool then g w' else Ok (false, w').

Fixpoint wseqs (l : list wr) : wr :=
  match l with
  | [] => wok
  | f :: r => wseq f (wseqs r)
  end.

Definition wif (b : bool) (f : wr) : wr := if b then f else wok.

(* use a value computed with possible failure of memory safety, independent of the writer *)
Definition wbind {A} (m : outcome A) (k : A -> wr) : wr := fun w => a <- m ;; k a w.

(* asap.c:4708-4713 ASAPWriter_SetOutput *)
Definition api_set_output (output : list Z) (startIndex endIndex : Z) : wstate := mkW output startIndex endIndex.

(* asap.c:4715-4721 ASAPWriter_WriteByte *)
Definition write_byte (value : Z) : wr := fun w =>
  if w_end w <=? w_off w then Ok (false, w)
  else
    out <- set_nth (w_out w) (w_off w) (u8 value) ;;
    Ok (true, mkW out (w_off w + 1) (w_end w)).

(* asap.c:4723-4728 ASAPWriter_WriteWord; an argument above 65535 or below 0 is truncated by WriteByte *)
Definition write_word (value : Z) : wr :=
  wseq (write_byte (Z.land value 255)) (write_byte (Z.shiftr value 8)).

(* memcpy of bytes [l] to array [a] at index [i] *)
Definition put_range (a : list Z) (i : Z) (l : list Z) : outcome (list Z) :=
  if (i <? 0) || (len a <? i + len l) then UB UbWrite
  else Ok (firstn (Z.to_nat i) a ++ l ++ skipn (Z.to_nat (i + len l)) a).

(* asap.c:4730-4738 ASAPWriter_WriteBytes *)
Definition write_bytes (array : list Z) (startIndex endIndex : Z) : wr := fun w =>
  let length := endIndex - startIndex in
  if w_end w <? w_off w + length then Ok (false, w)
  else
    l <- get_range array startIndex endIndex ;;
    out <- put_range (w_out w) (w_off w) l ;;
    Ok (true, mkW out (w_off w + length) (w_end w)).

(* asap.c:4740-4747 ASAPWriter_WriteString *)
Fixpoint write_string (s : list Z) : wr :=
  match s with
  | [] => wok
  | c :: r => wseq (write_byte c) (write_string r)
  end.

(* asap.c:4749-4757 ASAPWriter_WriteDec; fuel bounds the recursion depth (10 digits suffice for int) *)
Fixpoint write_dec (fuel : nat) (value : Z) : wr :=
  if 10 <=? value then
    match fuel with
    | O => fun _ => OutOfFuel
    | S fuel => wseq (write_dec fuel (Z.quot value 10)) (write_byte (48 + Z.rem value 10))
    end
  else write_byte (48 + value).

(* asap.c:4759-4774 ASAPWriter_WriteTextSapTag *)
Definition write_text_sap_tag (tag value : list Z) : wr :=
  wseqs [ write_string tag; write_byte 34;
          write_string (match value with [] => str "<?>" | _ => value end);
          write_byte 34; write_byte 13; write_byte 10 ].

(* asap.c:4776-4785 ASAPWriter_WriteDecSapTag *)
Definition write_dec_sap_tag (tag : list Z) (value : Z) : wr :=
  wseqs [ write_string tag; write_dec 10 value; write_byte 13; write_byte 10 ].

(* asap.c:4793-4797: one hexadecimal digit *)
Definition write_hex_digit (value i : Z) : wr :=
  let digit := Z.land (Z.shiftr value i) 15 in
  write_byte (digit + (if digit <? 10 then 48 else 55)).

(* asap.c:4787-4801 ASAPWriter_WriteHexSapTag *)
Definition write_hex_sap_tag (tag : list Z) (value : Z) : wr :=
  if value <? 0 then wok
  else
    wseqs [ write_string tag; write_hex_digit value 12; write_hex_digit value 8;
            write_hex_digit value 4; write_hex_digit value 0; write_byte 13; write_byte 10 ].

(* asap.c:4850-4867: the TIME tags from song [song] on; fuel counts the remaining songs.
   WriteBytes copies from the local 9-byte array only what DurationToString stored. *)
Fixpoint write_times (fuel : nat) (inf : info) (song : Z) : wr :=
  match fuel with
  | O => wok
  | S fuel =>
    wbind (api_get_duration inf song) (fun d =>
    if d <? 0 then wok
    else
      wbind (api_get_loop inf song) (fun loop =>
      let s := duration_to_string d in
      wseqs [ write_string (str "TIME "); write_bytes s 0 (len s);
              wif loop (write_string (str " LOOP")); write_byte 13; write_byte 10;
              write_times fuel inf (song + 1) ]))
  end.

(* asap.c:4803-4869 ASAPWriter_WriteSapHeader *)
Definition write_sap_header (inf : info) (type init player : Z) : wr :=
  wseqs
    [ write_string (str "SAP" ++ [13; 10]);
      write_text_sap_tag (str "AUTHOR ") (i_author inf);
      write_text_sap_tag (str "NAME ") (i_title inf);
      write_text_sap_tag (str "DATE ") (i_date inf);
      wif (1 <? i_songs inf)
        (wseq (write_dec_sap_tag (str "SONGS ") (i_songs inf))
              (wif (0 <? i_defsong inf) (write_dec_sap_tag (str "DEFSONG ") (i_defsong inf))));
      wif (1 <? i_channels inf) (write_string (str "STEREO" ++ [13; 10]));
      wif (i_ntsc inf) (write_string (str "NTSC" ++ [13; 10]));
      write_string (str "TYPE "); write_byte type; write_byte 13; write_byte 10;
      wif (negb (i_fastplay inf =? (if type =? 83 then 78 else 312)) || i_ntsc inf)
        (write_dec_sap_tag (str "FASTPLAY ") (i_fastplay inf));
      wif (type =? 67) (write_hex_sap_tag (str "MUSIC ") (i_music inf));
      write_hex_sap_tag (str "INIT ") init;
      write_hex_sap_tag (str "PLAYER ") player;
      write_hex_sap_tag (str "COVOX ") (i_covox inf);
      write_times (Z.to_nat (i_songs inf)) inf 0 ].

(* ------------------------------------------------------------------ *)
(* Executables                                                         *)

(* asap.c:4871-4893 ASAPWriter_WriteExecutableHeader; [xex] is "initAndPlayer != NULL".
   The values stored through initAndPlayer are given by [exec_init_player] below. *)
Definition write_executable_header (xex : bool) (inf : info) (type init player : Z) : wr :=
  if xex then wok else write_sap_header inf type init player.

(* asap.c:4884-4893 ASAPWriter_WritePlaTaxLda0 *)
Definition write_pla_tax_lda0 : wr := wseqs [write_byte 104; write_byte 170; write_byte 169; write_byte 0].

(* asap.c:4895-4931 ASAPWriter_WriteCmcInit; [player] is initAndPlayer[1] on entry *)
Definition write_cmc_init (xex : bool) (inf : info) (player : Z) : wr :=
  wif xex
    (wseqs [ write_word 4064; write_word 4080; write_byte 72;
             write_byte 162; write_byte (Z.land (i_music inf) 255);
             write_byte 160; write_byte (Z.shiftr (i_music inf) 8);
             write_byte 169; write_byte 112; write_byte 32; write_word (player + 3);
             write_pla_tax_lda0; write_byte 76; write_word (player + 3) ]).

(* asap.c:4933-4938 ASAPWriter_WriteExecutableFromSap *)
Definition write_executable_from_sap (xex : bool) (inf : info) (type : Z) (module : list Z) : wr :=
  wseq (write_executable_header xex inf type (i_init inf) (i_player inf))
       (write_bytes module (i_headerLen inf) (len module)).

(* asap.c:4940-4946 ASAPWriter_WriteExecutableHeaderForSongPos: the start address returned on success *)
Definition song_pos_start (inf : info) (player codeForOneSong codeForManySongs : Z) : Z :=
  if negb (i_songs inf =? 1) then player - codeForManySongs - i_songs inf else player - codeForOneSong.

(* asap.c:4940-4946: the init address it passes on *)
Definition song_pos_init (inf : info) (player codeForOneSong codeForManySongs : Z) : Z :=
  if negb (i_songs inf =? 1) then player - codeForManySongs else player - codeForOneSong.

(* asap.c:2724-2750 ASAP6502_GetPlayerRoutine *)
Definition player_routine (inf : info) : option (list Z) :=
  match i_type inf with
  | CMC => Some res_cmc_obx
  | CM3 => Some res_cm3_obx
  | CMR => Some res_cmr_obx
  | CMS => Some res_cms_obx
  | DLT => Some res_dlt_obx
  | MPT => Some res_mpt_obx
  | RMT => Some (if i_channels inf =? 1 then res_rmt4_obx else res_rmt8_obx)
  | TMC => Some res_tmc_obx
  | TM2 => Some res_tm2_obx
  | FC => Some res_fc_obx
  | SAP_B | SAP_C | SAP_D | SAP_S => None
  end.

(* asap.c:5130,5132: tables indexed with perFrame - 1 *)
Definition tmc_player_offset : list Z := [3; -9; -10; -10].
Definition tmc_init_offset : list Z := [-14; -16; -17; -17].

(* asap.c:5129-5136: player and init addresses of a TMC executable *)
Definition tmc_addresses (inf : info) (player : Z) (module : list Z) : outcome (Z * Z * Z) :=
  perFrame <- get module 37 ;;
  po <- get tmc_player_offset (perFrame - 1) ;;
  let player2 := player + po in
  io <- get tmc_init_offset (perFrame - 1) ;;
  let startAddr := player2 + io in
  Ok (perFrame, player2, if negb (i_songs inf =? 1) then startAddr - 3 else startAddr).

(* asap.c:4948-5322 ASAPWriter_WriteExecutable, the switch for native types;
   player, playerLastByte: words at 2 and 4 of the player routine *)
Definition write_executable_native (xex : bool) (inf : info) (module routine : list Z) (player playerLastByte : Z) : wr :=
  let music := i_music inf in
  let songs := i_songs inf in
  let many := negb (songs =? 1) in
  let routineEnd := playerLastByte - player + 7 in
  match i_type inf with
  | CMC | CM3 | CMR | CMS =>
    wseqs [ write_executable_header xex inf 67 (-1) player;
            write_word 65535; write_bytes module 2 (len module);
            write_bytes routine 2 routineEnd;
            write_cmc_init xex inf player ]
  | DLT =>
    let startAddr := song_pos_start inf player 5 7 in
    wseqs [ write_executable_header xex inf 66 (song_pos_init inf player 5 7) (player + 259);
            (if len module =? 11270 then
               wseqs [ write_bytes module 0 4; write_word 19456; write_bytes module 6 (len module); write_byte 0 ]
             else write_bytes module 0 (len module));
            write_word startAddr; write_word playerLastByte;
            (if many then
               wseqs [ write_bytes (i_songPos inf) 0 songs; write_byte 170; write_byte 188; write_word startAddr ]
             else wseqs [ write_byte 160; write_byte 0 ]);
            write_byte 76; write_word (player + 256);
            write_bytes routine 6 routineEnd ]
  | MPT =>
    let startAddr := song_pos_start inf player 13 17 in
    wseqs [ write_executable_header xex inf 66 (song_pos_init inf player 13 17) (player + 3);
            write_bytes module 0 (len module);
            write_word startAddr; write_word playerLastByte;
            wif many (wseqs [ write_bytes (i_songPos inf) 0 songs; write_byte 72 ]);
            write_byte 160; write_byte (Z.land music 255);
            write_byte 162; write_byte (Z.shiftr music 8);
            write_byte 169; write_byte 0; write_byte 32; write_word player;
            (if many then wseqs [ write_byte 104; write_byte 168; write_byte 190; write_word startAddr ]
             else wseqs [ write_byte 162; write_byte 0 ]);
            write_byte 169; write_byte 2;
            write_bytes routine 6 routineEnd ]
  | RMT =>
    wseqs [ write_executable_header xex inf 66 3200 1539;
            wbind (get_word module 4) (fun last => write_bytes module 0 (last - music + 7));
            write_word 3200;
            (if many then wseqs [ write_word (3210 + songs); write_byte 168; write_byte 185; write_word 3211 ]
             else wseqs [ write_word 3208; write_byte 169; write_byte 0 ]);
            write_byte 162; write_byte (Z.land music 255);
            write_byte 160; write_byte (Z.shiftr music 8);
            write_byte 76; write_word 1536;
            wif many (write_bytes (i_songPos inf) 0 songs);
            write_bytes routine 2 routineEnd ]
  | TMC =>
    wbind (tmc_addresses inf player module) (fun '(perFrame, player2, startAddr) =>
    wseqs [ write_executable_header xex inf 66 startAddr player2;
            write_bytes module 0 (len module);
            write_word startAddr; write_word playerLastByte;
            wif many (write_byte 72);
            write_byte 160; write_byte (Z.land music 255);
            write_byte 162; write_byte (Z.shiftr music 8);
            write_byte 169; write_byte 112; write_byte 32; write_word player;
            (if many then write_pla_tax_lda0 else wseqs [ write_byte 169; write_byte 96 ]);
            (if perFrame =? 2 then
               wseqs [ write_byte 6; write_byte 0; write_byte 76; write_word player;
                       write_byte 165; write_byte 0; write_byte 230; write_byte 0; write_byte 74;
                       write_byte 144; write_byte 5; write_byte 176; write_byte 6 ]
             else if (perFrame =? 3) || (perFrame =? 4) then
               wseqs [ write_byte 160; write_byte 1; write_byte 132; write_byte 0; write_byte 208; write_byte 10;
                       write_byte 198; write_byte 0; write_byte 208; write_byte 12;
                       write_byte 160; write_byte perFrame; write_byte 132; write_byte 0;
                       write_byte 208; write_byte 3 ]
             else wok);
            write_bytes routine 6 routineEnd ])
  | TM2 =>
    wseqs [ write_executable_header xex inf 66 4992 2051;
            write_bytes module 0 (len module);
            write_word 4992;
            (if many then wseqs [ write_word 5008; write_byte 72 ] else write_word 5006);
            write_byte 160; write_byte (Z.land music 255);
            write_byte 162; write_byte (Z.shiftr music 8);
            write_byte 169; write_byte 112; write_byte 32; write_word 2048;
            (if many then write_pla_tax_lda0 else wseqs [ write_byte 169; write_byte 0; write_byte 170 ]);
            write_byte 76; write_word 2048;
            write_bytes routine 2 routineEnd ]
  | FC =>
    wseqs [ write_executable_header xex inf 66 player (player + 3);
            write_word 65535; write_word music; write_word (music + len module - 1);
            write_bytes module 0 (len module);
            write_bytes routine 2 routineEnd ]
  | _ => wok
  end.

(* asap.c:4948-5322 ASAPWriter_WriteExecutable *)
Definition write_executable (xex : bool) (inf : info) (module : list Z) : wr :=
  match player_routine inf with
  | Some routine =>
    wbind (get_word routine 2) (fun player =>
    wbind (get_word routine 4) (fun playerLastByte =>
    if i_music inf <=? playerLastByte then wfail
    else write_executable_native xex inf module routine player playerLastByte))
  | None =>
    match i_type inf with
    | SAP_B => write_executable_from_sap xex inf 66 module
    | SAP_C => wseq (write_executable_from_sap xex inf 67 module) (write_cmc_init xex inf (i_player inf))
    | SAP_D => write_executable_from_sap xex inf 68 module
    | SAP_S => write_executable_from_sap xex inf 83 module
    | _ => wok
    end
  end.

(* The values WriteExecutable leaves in initAndPlayer[0..1]: asap.c:4878-4880 as called by
   WriteExecutable, updated by asap.c:4928-4929 for the CMC family and SAP type C *)
Definition exec_init_player (inf : info) (module : list Z) : outcome (Z * Z) :=
  match player_routine inf with
  | Some routine =>
    player <- get_word routine 2 ;;
    match i_type inf with
    | CMC | CM3 | CMR | CMS => Ok (4064, player + 6)
    | DLT => Ok (song_pos_init inf player 5 7, player + 259)
    | MPT => Ok (song_pos_init inf player 13 17, player + 3)
    | RMT => Ok (3200, 1539)
    | TMC => '(_, player2, startAddr) <- tmc_addresses inf player module ;; Ok (startAddr, player2)
    | TM2 => Ok (4992, 2051)
    | _ => Ok (player, player + 3)
    end
  | None =>
    match i_type inf with
    | SAP_C => Ok (4064, i_player inf + 6)
    | _ => Ok (i_init inf, i_player inf)
    end
  end.

(* ------------------------------------------------------------------ *)
(* Title screen of an executable                                       *)

(* Append to a 256-byte local array filled up to [len dest]; the arrays are only written
   at their current end, so the list holds the initialised part. *)
Definition push (dest : list Z) (c : Z) : outcome (list Z) :=
  if len dest <? 256 then Ok (dest ++ [u8 c]) else UB UbWrite.

(* asap.c:5324-5329 ASAPWriter_PadXexInfo; fuel 32 suffices for endColumn in 0..31 *)
Fixpoint pad_xex_info (fuel : nat) (dest : list Z) (endColumn : Z) : outcome (list Z) :=
  if negb (Z.rem (len dest) 32 =? endColumn) then
    match fuel with
    | O => OutOfFuel
    | S fuel => dest <- push dest 32 ;; pad_xex_info fuel dest endColumn
    end
  else Ok dest.

(* asap.c:5340-5343: authorLen for the text [r] that starts with the ampersand *)
Fixpoint author_len_tail (r : list Z) : Z :=
  match r with
  | 32 :: ((38 :: _) as t) => 0
  | _ :: t => 1 + author_len_tail t
  | [] => 0
  end.

Definition author_len (r : list Z) : Z :=
  match r with
  | [] => 1
  | _ :: t => 1 + author_len_tail t
  end.

(* asap.c:5350-5352: length of the next word *)
Fixpoint word_len (r : list Z) : Z :=
  match r with
  | [] => 0
  | c :: t => if c =? 32 then 0 else 1 + word_len t
  end.

(* asap.c:5331-5359 ASAPWriter_FormatXexInfoText, the loop; [src] is src[srcOffset..] *)
Fixpoint format_xex_loop (dest src : list Z) (author : bool) : outcome (list Z) :=
  match src with
  | [] => Ok dest
  | c :: r =>
    if c =? 32 then
      if author && (match r with 38 :: _ => true | _ => false end)
         && (author_len r <=? 32) && (32 <? Z.rem (len dest) 32 + 1 + author_len r)
      then dest <- pad_xex_info 32 dest 1 ;; format_xex_loop dest r author
      else if (word_len r <=? 32) && (32 <? Z.rem (len dest) 32 + 1 + word_len r)
      then dest <- pad_xex_info 32 dest 0 ;; format_xex_loop dest r author
      else dest <- push dest c ;; format_xex_loop dest r author
    else dest <- push dest c ;; format_xex_loop dest r author
  end.

(* asap.c:5331-5359 ASAPWriter_FormatXexInfoText *)
Definition format_xex_info_text (dest : list Z) (endColumn : Z) (src : list Z) (author : bool) : outcome (list Z) :=
  dest <- format_xex_loop dest src author ;;
  pad_xex_info 32 dest endColumn.

(* asap.c:5365-5371, the loop of WriteXexInfoTextDl, and the similar loops of WriteXexInfo: for (i = 32; i < len; i += 32) *)
Fixpoint write_dl_lines (fuel : nat) (i n verticalScrollAt : Z) : wr :=
  if i <? n then
    match fuel with
    | O => fun _ => OutOfFuel
    | S fuel => wseq (write_byte (if i =? verticalScrollAt then 34 else 2)) (write_dl_lines fuel (i + 32) n verticalScrollAt)
    end
  else wok.

(* asap.c:5361-5372 ASAPWriter_WriteXexInfoTextDl *)
Definition write_xex_info_text_dl (address n verticalScrollAt : Z) : wr :=
  wseqs [ write_byte (if verticalScrollAt =? 0 then 98 else 66); write_word address;
          write_dl_lines 16 32 n verticalScrollAt ].

(* n times WriteByte(value): the loops asap.c:5408-5411, 5416-5419, 5426-5429, 5432-5435 *)
Fixpoint write_repeat (n : nat) (value : Z) : wr :=
  match n with
  | O => wok
  | S n => wseq (write_byte value) (write_repeat n value)
  end.

(* asap.c:5374-5394: the three text buffers *)
Definition xex_title (inf : info) : outcome (list Z) :=
  format_xex_info_text [] 0 (match i_title inf with [] => str "(untitled)" | t => t end) false.

Definition xex_author (inf : info) : outcome (list Z) :=
  match i_author inf with
  | [] => Ok []
  | a => format_xex_info_text (str "by ") 0 a true
  end.

Definition xex_other (inf : info) : outcome (list Z) :=
  other <- format_xex_info_text [] 19 (i_date inf) false ;;
  other <- format_xex_info_text other 27 (if 1 <? i_channels inf then str " STEREO" else str "   MONO") false ;;
  duration <- api_get_duration inf (i_defsong inf) ;;
  if 0 <? duration then
    rounded <- chk (duration + 999) ;;
    match seconds_to_string rounded with
    | Ok s => if len other + 5 <=? 256 then Ok (other ++ s) else UB UbWrite
    | _ => pad_xex_info 32 other 0
    end
  else pad_xex_info 32 other 0.

(* asap.c:5374-5437 ASAPWriter_WriteXexInfo *)
Definition write_xex_info (inf : info) : wr :=
  wbind (xex_title inf) (fun title =>
  wbind (xex_author inf) (fun author =>
  wbind (xex_other inf) (fun other =>
  let titleLen := len title in
  let authorLen := len author in
  let otherLen := len other in
  let totalLines := Z.quot (titleLen + authorLen + otherLen) 32 in
  let otherAddress := 64592 - otherLen in
  let titleAddress := otherAddress - authorLen - 8 - titleLen in
  wseqs [ write_word titleAddress; write_bytes res_xexinfo_obx 4 6;
          write_bytes title 0 titleLen; write_repeat 8 85;
          write_bytes author 0 authorLen; write_bytes other 0 otherLen;
          write_repeat (Z.to_nat (26 - totalLines)) 112; write_byte 48;
          write_xex_info_text_dl titleAddress titleLen (titleLen - 32);
          write_byte 8; write_byte 0;
          write_repeat (Z.to_nat ((authorLen + 31) / 32)) 2;
          write_byte 16;
          write_repeat (Z.to_nat ((otherLen + 31) / 32)) 2;
          write_bytes res_xexinfo_obx 6 178 ]))).

(* asap.c:5498-5540: the part of ASAPWriter_Write between WriteExecutable and FlashPack *)
Definition write_xex_tail (inf : info) (tag : bool) (init player : Z) : wr :=
  wseqs [
    (match i_type inf with
     | SAP_D =>
       if negb (i_fastplay inf =? 312) then wfail
       else
         wseqs [ write_bytes res_xexd_obx 2 117; write_word init;
                 (if player <? 0 then wseqs [ write_byte 96; write_byte 96; write_byte 96 ]
                  else wseqs [ write_byte 76; write_word player ]);
                 write_byte (i_defsong inf) ]
     | SAP_S => wfail
     | _ =>
       let fastplay := i_fastplay inf in
       wseqs [ write_bytes res_xexb_obx 2 183; write_word init; write_byte 76; write_word player;
               write_byte (i_defsong inf);
               write_byte (Z.land fastplay 1);
               write_byte (Z.rem (Z.shiftr fastplay 1) 156);
               write_byte (Z.rem (Z.shiftr fastplay 1) 131);
               write_byte (Z.quot fastplay 312);
               write_byte (Z.quot fastplay 262) ]
     end);
    wif tag (write_xex_info inf);
    write_word 736; write_word 737; write_word (if tag then 256 else 292) ].

(* ------------------------------------------------------------------ *)
(* Original module types                                               *)

(* asap.c:4414-4422 ASAPInfo_GetRmtSapOffset; the three character tests are evaluated left to right *)
Definition get_rmt_sap_offset (inf : info) (module : list Z) : outcome Z :=
  if negb (i_player inf =? 13315) then Ok (-1)
  else
    last <- get_word module (i_headerLen inf + 4) ;;
    first <- get_word module (i_headerLen inf + 2) ;;
    let offset := i_headerLen inf + last - first + 7 in
    if len module <=? offset + 6 then Ok (-1)
    else
      rmt <- has_string_at module (offset + 4) (str "RMT") ;;
      Ok (if rmt : bool then offset else -1).

(* asap.c:4424-4455 ASAPInfo_GetOriginalModuleType *)
Definition get_original_module_type (inf : info) (module : list Z) : outcome module_type :=
  let init := i_init inf in
  let player := i_player inf in
  let fastplay := i_fastplay inf in
  match i_type inf with
  | SAP_B =>
    if ((init =? 1019) || (init =? 1017)) && (player =? 1283) then Ok DLT
    else if (((init =? 1267) || (init =? 1263)) && (player =? 1283)) || ((init =? 62707) && (player =? 62723)) then Ok MPT
    else
      rmt <- (if init =? 3200 then Ok true else o <- get_rmt_sap_offset inf module ;; Ok (0 <? o)) ;;
      if rmt : bool then Ok RMT
      else if (init =? 1269) || (init =? 62709) || (init =? 1266)
              || (((init =? 1255) || (init =? 62695) || (init =? 1252)) && (fastplay =? 156))
              || (((init =? 1253) || (init =? 62693) || (init =? 1250)) && ((fastplay =? 104) || (fastplay =? 78)))
      then Ok TMC
      else if ((init =? 4224) && (player =? 1283)) || ((init =? 4992) && (player =? 2051)) then Ok TM2
      else if (init =? 1024) && (player =? 1027) then Ok FC
      else Ok SAP_B
  | SAP_C =>
    if ((player =? 1280) || (player =? 62720)) && (1024 <=? len module) then
      if 1 <? i_channels inf then Ok CMS
      else
        a <- get module (len module - 170) ;;
        if a =? 30 then Ok CMR
        else
          b <- get module (len module - 909) ;;
          Ok (if b =? 48 then CM3 else CMC)
    else Ok SAP_C
  | t => Ok t
  end.

(* asap.c:4457-4483 ASAPInfo_GetOriginalModuleExt; None is NULL *)
Definition get_original_module_ext (inf : info) (module : list Z) : outcome (option (list Z)) :=
  t <- get_original_module_type inf module ;;
  Ok (match t with
      | CMC => Some (if i_fastplay inf =? 156 then str "dmc" else str "cmc")
      | CM3 => Some (str "cm3")
      | CMR => Some (str "cmr")
      | CMS => Some (str "cms")
      | DLT => Some (str "dlt")
      | MPT => Some (if i_fastplay inf =? 156 then str "mpd" else str "mpt")
      | RMT => Some (str "rmt")
      | TMC => Some (str "tmc")
      | TM2 => Some (str "tm2")
      | FC => Some (str "fc")
      | SAP_B | SAP_C | SAP_D | SAP_S => None
      end).

(* asap.c:4646-4673 ASAPWriter_GetSaveExts; the list of extensions stored.
   In the default branch a NULL extension would be stored as such; there it cannot be NULL. *)
Definition api_get_save_exts (inf : info) (module : list Z) : outcome (list (list Z)) :=
  match i_type inf with
  | SAP_B | SAP_C =>
    e <- get_original_module_ext inf module ;;
    Ok ([str "sap"] ++ (match e with Some e => [e] | None => [] end) ++ [str "xex"])
  | SAP_D => Ok (if i_fastplay inf =? 312 then [str "sap"; str "xex"] else [str "sap"])
  | SAP_S => Ok [str "sap"]
  | _ =>
    e <- get_original_module_ext inf module ;;
    match e with
    | Some e => Ok [e; str "sap"; str "xex"]
    | None => UB UbRead
    end
  end.

(* ------------------------------------------------------------------ *)
(* Native modules                                                      *)

(* asap.c:456-461 struct ASAPNativeModuleWriter without the writer *)
Record nmw := mkN { n_module : list Z; n_offset : Z; n_diff : Z }.

(* asap.c:4485-4488 ASAPNativeModuleWriter_GetByte *)
Definition n_get_byte (n : nmw) (offset : Z) : outcome Z := get (n_module n) (n_offset n + offset).

(* asap.c:4490-4493 ASAPNativeModuleWriter_GetWord *)
Definition n_get_word (n : nmw) (offset : Z) : outcome Z := get_word (n_module n) (n_offset n + offset).

(* asap.c:4495-4498 ASAPNativeModuleWriter_Copy *)
Definition n_copy (n : nmw) (endOffset : Z) : wr := fun w =>
  write_bytes (n_module n) (n_offset n + w_off w) (n_offset n + endOffset) w.

(* asap.c:4506-4508, 4527-4529: add the difference unless the address is 0 or 65535 *)
Definition relocate (diff address : Z) : Z :=
  if negb (address =? 0) && negb (address =? 65535) then address + diff else address.

(* asap.c:4500-4513 ASAPNativeModuleWriter_RelocateBytes, the loop; lowOffset and highOffset include
   sourceOffset + i; the fuel is the number of remaining iterations *)
Fixpoint n_relocate_bytes_loop (n : nmw) (lowOffset highOffset : Z) (count : nat) (shift : Z) : wr :=
  match count with
  | O => wok
  | S count =>
    wbind (get (n_module n) lowOffset) (fun lo =>
    wbind (get (n_module n) highOffset) (fun hi =>
    wseq (write_byte (Z.land (Z.shiftr (relocate (n_diff n) (lo + Z.shiftl hi 8)) shift) 255))
         (n_relocate_bytes_loop n (lowOffset + 1) (highOffset + 1) count shift)))
  end.

(* asap.c:4500-4513 ASAPNativeModuleWriter_RelocateBytes *)
Definition n_relocate_bytes (n : nmw) (lowOffset highOffset count shift : Z) : wr :=
  n_relocate_bytes_loop n (lowOffset + n_offset n) (highOffset + n_offset n) (Z.to_nat count) shift.

(* asap.c:4515-4521 ASAPNativeModuleWriter_RelocateLowHigh *)
Definition n_relocate_low_high (n : nmw) (count : Z) : wr := fun w =>
  let lowOffset := w_off w in
  wseq (n_relocate_bytes n lowOffset (lowOffset + count) count 0)
       (n_relocate_bytes n lowOffset (lowOffset + count) count 8) w.

(* asap.c:4523-4533 ASAPNativeModuleWriter_RelocateWords *)
Fixpoint n_relocate_words (n : nmw) (count : nat) : wr := fun w =>
  match count with
  | O => wok w
  | S count =>
    wbind (n_get_word n (w_off w)) (fun address =>
    wseq (write_word (relocate (n_diff n) address)) (n_relocate_words n count)) w
  end.

(* asap.c:4583-4597: the loop over the RMT song; fuel bounds the iterations *)
Fixpoint n_rmt_song (fuel : nat) (n : nmw) (songOffset songEnd : Z) : wr :=
  if songOffset + 3 <? songEnd then
    match fuel with
    | O => fun _ => OutOfFuel
    | S fuel =>
      wbind (n_get_byte n 9) (fun ch =>
      let nextSongOffset := songOffset + ch - 48 in
      wbind (n_get_byte n songOffset) (fun b =>
      let nextSongOffset' := if songEnd <? nextSongOffset then songEnd else nextSongOffset in
      wseqs [ wif (b =? 254) (wseq (n_copy n (songOffset + 2)) (n_relocate_words n 1));
              n_copy n nextSongOffset';
              n_rmt_song fuel n nextSongOffset' songEnd ]))
    end
  else wok.

(* asap.c:4535-4627 ASAPNativeModuleWriter_Write.
   RelocateWords and RelocateLowHigh with a negative count do nothing, as Z.to_nat does. *)
Definition n_write (module : list Z) (sourceOffset : Z) (inf : info) (type : module_type) (moduleLen : Z) : wr :=
  wbind (get_word module (sourceOffset + 2)) (fun startAddr =>
  let n := mkN module sourceOffset (if i_music inf <? 0 then 0 else i_music inf - startAddr) in
  wbind (n_get_word n 4) (fun last =>
  if 65535 <? last + n_diff n then wfail
  else
    match type with
    | CMC | CM3 | CMR | CMS =>
      wseqs [ n_relocate_words n 3; n_copy n 26; n_relocate_low_high n 64; n_copy n moduleLen ]
    | DLT => wseqs [ n_relocate_words n 3; n_copy n moduleLen ]
    | MPT =>
      wseqs [ n_relocate_words n 99; n_copy n 454; n_relocate_low_high n 4; n_copy n moduleLen ]
    | RMT =>
      wseqs [ write_word 65535; n_relocate_words n 2; n_copy n 14;
        wbind (n_get_word n 16) (fun patternLowAddress =>
        wseq (n_relocate_words n (Z.to_nat (Z.shiftr (patternLowAddress - startAddr - 8) 1)))
        (wbind (n_get_word n 18) (fun patternHighAddress =>
        wseq (n_relocate_low_high n (patternHighAddress - patternLowAddress))
        (wbind (n_get_word n 20) (fun songAddress =>
        let songOffset := 6 + songAddress - startAddr in
        wseq (n_copy n songOffset)
        (let songEnd := 7 + last - startAddr in
         wseqs [ n_rmt_song (Z.to_nat (songEnd - songOffset)) n songOffset songEnd;
                 n_copy n songEnd;
                 wif (songEnd + 5 <=? moduleLen) (n_relocate_words n 2);
                 n_copy n moduleLen ])))))) ]
    | TMC =>
      wseqs [ n_relocate_words n 3; n_copy n 38; n_relocate_low_high n 64; n_relocate_low_high n 128;
              n_copy n moduleLen ]
    | TM2 =>
      wseqs [ n_relocate_words n 3; n_copy n 134; n_relocate_bytes n 134 774 128 0;
              n_relocate_low_high n 256; n_relocate_bytes n 134 774 128 8; n_copy n moduleLen ]
    | _ => wfail
    end)).

(* asap.c:5439-5477 ASAPWriter_WriteNative *)
Definition write_native (inf : info) (module : list Z) : wr :=
  match i_type inf with
  | SAP_B | SAP_C =>
    wbind (get_rmt_sap_offset inf module) (fun offset =>
    if 0 <? offset then n_write module (offset - 2) inf RMT (len module - offset + 2)
    else
      wbind (get_word module (i_headerLen inf + 4)) (fun last =>
      wbind (get_word module (i_headerLen inf + 2)) (fun first =>
      let blockLen := last - first + 7 in
      if (blockLen <? 7) || (len module <=? i_headerLen inf + blockLen) then wfail
      else
        wbind (get_original_module_type inf module) (fun type =>
        match type with
        | FC => write_bytes module (i_headerLen inf + 6) (i_headerLen inf + blockLen)
        | _ => n_write module (i_headerLen inf) inf type blockLen
        end))))
  | FC => write_bytes module 0 (len module)
  | t => n_write module 0 inf t (len module)
  end.
