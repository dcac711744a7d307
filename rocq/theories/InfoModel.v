(* Model of class ASAPInfo (asapinfo.fu; C code in asap.c): state, setters and
   getters, text/number/duration parsing, SAP header parsing and file-type
   recognition.  The native-module parsers are in NativeModel.v. *)
From Coq Require Import Ascii String.
From Verif Require Import Base.

(* A Coq string literal as a list of character codes; modelling convenience only. *)
Fixpoint str (s : string) : list Z :=
  match s with
  | EmptyString => []
  | String a r => Z.of_N (N_of_ascii a) :: str r
  end.

(* asap.c:73-88 enum ASAPModuleType *)
Inductive module_type :=
| SAP_B | SAP_C | SAP_D | SAP_S | CMC | CM3 | CMR | CMS | DLT | MPT | RMT | TMC | TM2 | FC.

Definition module_type_eqb (a b : module_type) : bool :=
  match a, b with
  | SAP_B, SAP_B | SAP_C, SAP_C | SAP_D, SAP_D | SAP_S, SAP_S | CMC, CMC | CM3, CM3
  | CMR, CMR | CMS, CMS | DLT, DLT | MPT, MPT | RMT, RMT | TMC, TMC | TM2, TM2 | FC, FC => true
  | _, _ => false
  end.

(* asap.c:283-302 struct ASAPInfo.  Strings are lists of character codes
   without the terminating NUL; the 32-element arrays are lists. *)
Record info := mkInfo {
  i_filename : list Z;
  i_author : list Z;
  i_title : list Z;
  i_date : list Z;
  i_channels : Z;
  i_songs : Z;
  i_defsong : Z;
  i_durations : list Z;
  i_loops : list bool;
  i_ntsc : bool;
  i_type : module_type;
  i_fastplay : Z;
  i_music : Z;
  i_init : Z;
  i_player : Z;
  i_covox : Z;
  i_headerLen : Z;
  i_songPos : list Z
}.

Definition set_filename v (s : info) := mkInfo v (i_author s) (i_title s) (i_date s) (i_channels s) (i_songs s) (i_defsong s) (i_durations s) (i_loops s) (i_ntsc s) (i_type s) (i_fastplay s) (i_music s) (i_init s) (i_player s) (i_covox s) (i_headerLen s) (i_songPos s).
Definition set_author v (s : info) := mkInfo (i_filename s) v (i_title s) (i_date s) (i_channels s) (i_songs s) (i_defsong s) (i_durations s) (i_loops s) (i_ntsc s) (i_type s) (i_fastplay s) (i_music s) (i_init s) (i_player s) (i_covox s) (i_headerLen s) (i_songPos s).
Definition set_title v (s : info) := mkInfo (i_filename s) (i_author s) v (i_date s) (i_channels s) (i_songs s) (i_defsong s) (i_durations s) (i_loops s) (i_ntsc s) (i_type s) (i_fastplay s) (i_music s) (i_init s) (i_player s) (i_covox s) (i_headerLen s) (i_songPos s).
Definition set_date v (s : info) := mkInfo (i_filename s) (i_author s) (i_title s) v (i_channels s) (i_songs s) (i_defsong s) (i_durations s) (i_loops s) (i_ntsc s) (i_type s) (i_fastplay s) (i_music s) (i_init s) (i_player s) (i_covox s) (i_headerLen s) (i_songPos s).
Definition set_channels v (s : info) := mkInfo (i_filename s) (i_author s) (i_title s) (i_date s) v (i_songs s) (i_defsong s) (i_durations s) (i_loops s) (i_ntsc s) (i_type s) (i_fastplay s) (i_music s) (i_init s) (i_player s) (i_covox s) (i_headerLen s) (i_songPos s).
Definition set_songs v (s : info) := mkInfo (i_filename s) (i_author s) (i_title s) (i_date s) (i_channels s) v (i_defsong s) (i_durations s) (i_loops s) (i_ntsc s) (i_type s) (i_fastplay s) (i_music s) (i_init s) (i_player s) (i_covox s) (i_headerLen s) (i_songPos s).
Definition set_defsong v (s : info) := mkInfo (i_filename s) (i_author s) (i_title s) (i_date s) (i_channels s) (i_songs s) v (i_durations s) (i_loops s) (i_ntsc s) (i_type s) (i_fastplay s) (i_music s) (i_init s) (i_player s) (i_covox s) (i_headerLen s) (i_songPos s).
Definition set_durations v (s : info) := mkInfo (i_filename s) (i_author s) (i_title s) (i_date s) (i_channels s) (i_songs s) (i_defsong s) v (i_loops s) (i_ntsc s) (i_type s) (i_fastplay s) (i_music s) (i_init s) (i_player s) (i_covox s) (i_headerLen s) (i_songPos s).
Definition set_loops v (s : info) := mkInfo (i_filename s) (i_author s) (i_title s) (i_date s) (i_channels s) (i_songs s) (i_defsong s) (i_durations s) v (i_ntsc s) (i_type s) (i_fastplay s) (i_music s) (i_init s) (i_player s) (i_covox s) (i_headerLen s) (i_songPos s).
Definition set_ntsc v (s : info) := mkInfo (i_filename s) (i_author s) (i_title s) (i_date s) (i_channels s) (i_songs s) (i_defsong s) (i_durations s) (i_loops s) v (i_type s) (i_fastplay s) (i_music s) (i_init s) (i_player s) (i_covox s) (i_headerLen s) (i_songPos s).
Definition set_type v (s : info) := mkInfo (i_filename s) (i_author s) (i_title s) (i_date s) (i_channels s) (i_songs s) (i_defsong s) (i_durations s) (i_loops s) (i_ntsc s) v (i_fastplay s) (i_music s) (i_init s) (i_player s) (i_covox s) (i_headerLen s) (i_songPos s).
Definition set_fastplay v (s : info) := mkInfo (i_filename s) (i_author s) (i_title s) (i_date s) (i_channels s) (i_songs s) (i_defsong s) (i_durations s) (i_loops s) (i_ntsc s) (i_type s) v (i_music s) (i_init s) (i_player s) (i_covox s) (i_headerLen s) (i_songPos s).
Definition set_music v (s : info) := mkInfo (i_filename s) (i_author s) (i_title s) (i_date s) (i_channels s) (i_songs s) (i_defsong s) (i_durations s) (i_loops s) (i_ntsc s) (i_type s) (i_fastplay s) v (i_init s) (i_player s) (i_covox s) (i_headerLen s) (i_songPos s).
Definition set_init v (s : info) := mkInfo (i_filename s) (i_author s) (i_title s) (i_date s) (i_channels s) (i_songs s) (i_defsong s) (i_durations s) (i_loops s) (i_ntsc s) (i_type s) (i_fastplay s) (i_music s) v (i_player s) (i_covox s) (i_headerLen s) (i_songPos s).
Definition set_player v (s : info) := mkInfo (i_filename s) (i_author s) (i_title s) (i_date s) (i_channels s) (i_songs s) (i_defsong s) (i_durations s) (i_loops s) (i_ntsc s) (i_type s) (i_fastplay s) (i_music s) (i_init s) v (i_covox s) (i_headerLen s) (i_songPos s).
Definition set_covox v (s : info) := mkInfo (i_filename s) (i_author s) (i_title s) (i_date s) (i_channels s) (i_songs s) (i_defsong s) (i_durations s) (i_loops s) (i_ntsc s) (i_type s) (i_fastplay s) (i_music s) (i_init s) (i_player s) v (i_headerLen s) (i_songPos s).
Definition set_headerLen v (s : info) := mkInfo (i_filename s) (i_author s) (i_title s) (i_date s) (i_channels s) (i_songs s) (i_defsong s) (i_durations s) (i_loops s) (i_ntsc s) (i_type s) (i_fastplay s) (i_music s) (i_init s) (i_player s) (i_covox s) v (i_songPos s).
Definition set_songPos v (s : info) := mkInfo (i_filename s) (i_author s) (i_title s) (i_date s) (i_channels s) (i_songs s) (i_defsong s) (i_durations s) (i_loops s) (i_ntsc s) (i_type s) (i_fastplay s) (i_music s) (i_init s) (i_player s) (i_covox s) (i_headerLen s) v.

(* ------------------------------------------------------------------ *)
(* Durations                                                          *)

(* asap.c:2752-2760 DurationParser_ParseDigit; returns the digit and the new position *)
Definition parse_digit (s : list Z) (position max : Z) : outcome (Z * Z) :=
  if len s <=? position then Fail
  else
    c <- cget s position ;;
    let digit := c - 48 in
    if (digit <? 0) || (max <? digit) then Fail else Ok (digit, position + 1).

(* asap.c:2770-2787: second digit of the first number and the optional ":SS" part *)
Definition parse_duration_whole (s : list Z) : outcome (Z * Z) :=
  '(result, position) <- parse_digit s 0 9 ;;
  if position <? len s then
    c <- cget s position ;;
    let digit := c - 48 in
    let '(result, position) :=
      if (0 <=? digit) && (digit <=? 9) then (result * 10 + digit, position + 1)
      else (result, position) in
    colon <- (if position <? len s then c <- cget s position ;; Ok (c =? 58) else Ok false) ;;
    if colon : bool then
      '(digit, position) <- parse_digit s (position + 1) 5 ;;
      let result := result * 60 + digit * 10 in
      '(digit, position) <- parse_digit s position 9 ;;
      Ok (result + digit, position)
    else Ok (result, position)
  else Ok (result, position).

(* asap.c:2762-2806 DurationParser_Parse; asap.c:3830-3834 ASAPInfo_ParseDuration.
   [Fail] is the return value -1. *)
Definition parse_duration (s : list Z) : outcome Z :=
  '(result, position) <- parse_duration_whole s ;;
  let result := result * 1000 in
  if len s <=? position then Ok result
  else
    c <- cget s position ;;
    if negb (c =? 46) then Fail
    else
      '(digit, position) <- parse_digit s (position + 1) 9 ;;
      let result := result + digit * 100 in
      if len s <=? position then Ok result
      else
        '(digit, position) <- parse_digit s position 9 ;;
        let result := result + digit * 10 in
        if len s <=? position then Ok result
        else
          '(digit, position) <- parse_digit s position 9 ;;
          Ok (result + digit).

(* ------------------------------------------------------------------ *)
(* Characters, words                                                   *)

(* asap.c:2840-2843 ASAPInfo_IsValidChar (2845-2850 CheckValidChar is the same test) *)
Definition is_valid_char (c : Z) : bool :=
  (32 <=? c) && (c <=? 124) && negb (c =? 96) && negb (c =? 123).

(* asap.c:2852-2855 ASAPInfo_GetWord *)
Definition get_word (array : list Z) (i : Z) : outcome Z :=
  lo <- get array i ;;
  hi <- get array (i + 1) ;;
  Ok (lo + Z.shiftl hi 8).

(* ------------------------------------------------------------------ *)
(* SAP header parsing                                                  *)

(* asap.c:3772-3780 ASAPInfo_ParseText; the result is what C string functions see *)
Definition parse_text (module : list Z) (i argEnd : Z) : outcome (list Z) :=
  let n := argEnd - i - 2 in
  if (i <? 0) || (n <? 0) then Ok []
  else
    q1 <- get module i ;;
    if negb (q1 =? 34) then Ok []
    else
      q2 <- get module (argEnd - 1) ;;
      if negb (q2 =? 34) then Ok []
      else
        unknown <-
          (if n =? 3 then
             c1 <- get module (i + 1) ;;
             if negb (c1 =? 60) then Ok false
             else
               c2 <- get module (i + 2) ;;
               if negb (c2 =? 63) then Ok false
               else c3 <- get module (i + 3) ;; Ok (c3 =? 62)
           else Ok false) ;;
        if unknown : bool then Ok []
        else t <- get_range module (i + 1) (i + 1 + n) ;; Ok (cstr t).

(* asap.c:3782-3788 ASAPInfo_HasStringAt *)
Fixpoint has_string_at (module : list Z) (i : Z) (s : list Z) : outcome bool :=
  match s with
  | [] => Ok true
  | c :: r =>
    b <- get module i ;;
    if negb (c =? b) then Ok false else has_string_at module (i + 1) r
  end.

(* asap.c:3795-3802, the loop of ASAPInfo_ParseDec; fuel counts remaining characters *)
Fixpoint parse_dec_loop (fuel : nat) (module : list Z) (i argEnd maxVal r : Z) : outcome Z :=
  if i <? argEnd then
    match fuel with
    | O => OutOfFuel
    | S fuel =>
      c <- get module i ;;
      if (c <? 48) || (57 <? c) then Fail
      else
        let r := r * 10 + c - 48 in
        if maxVal <? r then Fail else parse_dec_loop fuel module (i + 1) argEnd maxVal r
    end
  else Ok r.

(* asap.c:3790-3806 ASAPInfo_ParseDec *)
Definition parse_dec (module : list Z) (i argEnd minVal maxVal : Z) : outcome Z :=
  if i <? 0 then Fail
  else
    r <- parse_dec_loop (length module) module i argEnd maxVal 0 ;;
    if r <? minVal then Fail else Ok r.

(* asap.c:3818-3825: value of a hexadecimal digit *)
Definition hex_digit (c : Z) : outcome Z :=
  if (48 <=? c) && (c <=? 57) then Ok (c - 48)
  else if (65 <=? c) && (c <=? 70) then Ok (c - 65 + 10)
  else if (97 <=? c) && (c <=? 102) then Ok (c - 97 + 10)
  else Fail.

(* asap.c:3813-3826, the loop of ASAPInfo_ParseHex *)
Fixpoint parse_hex_loop (fuel : nat) (module : list Z) (i argEnd r : Z) : outcome Z :=
  if i <? argEnd then
    match fuel with
    | O => OutOfFuel
    | S fuel =>
      c <- get module i ;;
      if 4095 <? r then Fail
      else
        d <- hex_digit c ;;
        parse_hex_loop fuel module (i + 1) argEnd (Z.shiftl r 4 + d)
    end
  else Ok r.

(* asap.c:3808-3828 ASAPInfo_ParseHex *)
Definition parse_hex (module : list Z) (i argEnd : Z) : outcome Z :=
  if i <? 0 then Fail else parse_hex_loop (length module) module i argEnd 0.

(* asap.c:3836-3839 ASAPInfo_ValidateSap *)
Definition validate_sap (module : list Z) : outcome bool :=
  if 30 <=? len module then has_string_at module 0 (str "SAP" ++ [13; 10]) else Ok false.

(* asap.c:3851-3854: advance over the characters of a tag *)
Fixpoint skip_tag (fuel : nat) (module : list Z) (i : Z) : outcome Z :=
  c <- get module i ;;
  if 32 <? c then
    match fuel with
    | O => OutOfFuel
    | S fuel => if len module <=? i + 1 then Fail else skip_tag fuel module (i + 1)
    end
  else Ok i.

(* asap.c:3858-3875: find the argument and the end of the line; returns
   moduleIndex (at the newline), argStart and argEnd *)
Fixpoint scan_arg (fuel : nat) (module : list Z) (i argStart argEnd : Z) : outcome (Z * Z * Z) :=
  c <- get module i ;;
  if 32 <? c then
    if is_valid_char c then
      let argStart := if argStart <? 0 then i else argStart in
      match fuel with
      | O => OutOfFuel
      | S fuel => if len module <=? i + 1 then Fail else scan_arg fuel module (i + 1) argStart (-1)
      end
    else Fail
  else
    let argEnd := if argEnd <? 0 then i else argEnd in
    if c =? 10 then Ok (i, argStart, argEnd)
    else
      match fuel with
      | O => OutOfFuel
      | S fuel => if len module <=? i + 1 then Fail else scan_arg fuel module (i + 1) argStart argEnd
      end.

(* The variables of the loop of ASAPInfo_ParseSap *)
Record sap_state := mkSapState {
  ss_info : info;
  ss_type : Z;
  ss_durIdx : Z
}.

Definition ss_upd (f : info -> info) (s : sap_state) : sap_state :=
  mkSapState (f (ss_info s)) (ss_type s) (ss_durIdx s).

(* asap.c:3884-3901: the TIME tag *)
Definition sap_time (module : list Z) (argStart argEnd : Z) (s : sap_state) : outcome sap_state :=
  if 32 <=? ss_durIdx s then Fail
  else if argStart <? 0 then Fail
  else
    loop <- (if 5 <? argEnd - argStart then has_string_at module (argEnd - 5) (str " LOOP") else Ok false) ;;
    '(inf, argEnd) <-
      (if loop : bool then
         l <- set_nth (i_loops (ss_info s)) (ss_durIdx s) true ;;
         Ok (set_loops l (ss_info s), argEnd - 5)
       else Ok (ss_info s, argEnd)) ;;
    arg <- get_range module argStart argEnd ;;
    d <- parse_duration (cstr arg) ;;
    l <- set_nth (i_durations inf) (ss_durIdx s) d ;;
    Ok (mkSapState (set_durations l inf) (ss_type s) (ss_durIdx s + 1)).

(* asap.c:3878-3941: act on one header line; [tag] is module[lineStart..lineStart+tagLen).
   The chain of "tagLen == n && memcmp(...) == 0" tests is equality of the tag with the name. *)
Definition sap_line (module tag : list Z) (argStart argEnd : Z) (s : sap_state) : outcome sap_state :=
  let is name := eqb_list tag (str name) in
  if is "AUTHOR"%string then
    t <- parse_text module argStart argEnd ;; Ok (ss_upd (set_author t) s)
  else if is "NAME"%string then
    t <- parse_text module argStart argEnd ;; Ok (ss_upd (set_title t) s)
  else if is "DATE"%string then
    t <- parse_text module argStart argEnd ;; Ok (ss_upd (set_date t) s)
  else if is "TIME"%string then sap_time module argStart argEnd s
  else if is "SONGS"%string then
    v <- parse_dec module argStart argEnd 1 32 ;; Ok (ss_upd (set_songs v) s)
  else if is "DEFSONG"%string then
    v <- parse_dec module argStart argEnd 0 31 ;; Ok (ss_upd (set_defsong v) s)
  else if is "TYPE"%string then
    if argStart <? 0 then Fail
    else t <- get module argStart ;; Ok (mkSapState (ss_info s) t (ss_durIdx s))
  else if is "FASTPLAY"%string then
    v <- parse_dec module argStart argEnd 1 32767 ;; Ok (ss_upd (set_fastplay v) s)
  else if is "MUSIC"%string then
    v <- parse_hex module argStart argEnd ;; Ok (ss_upd (set_music v) s)
  else if is "INIT"%string then
    v <- parse_hex module argStart argEnd ;; Ok (ss_upd (set_init v) s)
  else if is "PLAYER"%string then
    v <- parse_hex module argStart argEnd ;; Ok (ss_upd (set_player v) s)
  else if is "COVOX"%string then
    v <- parse_hex module argStart argEnd ;;
    if negb (v =? 54784) then Fail
    else Ok (ss_upd (fun i => set_channels 2 (set_covox v i)) s)
  else if is "STEREO"%string then Ok (ss_upd (set_channels 2) s)
  else if is "NTSC"%string then Ok (ss_upd (set_ntsc true) s)
  else Ok s.

(* asap.c:3849-3942: the loop over header lines *)
Fixpoint sap_loop (fuel : nat) (module : list Z) (i : Z) (s : sap_state) : outcome (Z * sap_state) :=
  c <- get module i ;;
  if c =? 255 then Ok (i, s)
  else
    match fuel with
    | O => OutOfFuel
    | S fuel =>
      let lineStart := i in
      i <- skip_tag (length module) module i ;;
      tag <- get_range module lineStart i ;;
      '(i, argStart, argEnd) <- scan_arg (length module) module i (-1) (-1) ;;
      let i := i + 1 in
      if len module <=? i + 6 then Fail
      else
        s <- sap_line module tag argStart argEnd s ;;
        sap_loop fuel module i s
    end.

(* asap.c:3943-3980: checks after the header *)
Definition sap_finish (module : list Z) (i : Z) (s : sap_state) : outcome info :=
  let inf := ss_info s in
  if i_songs inf <=? i_defsong inf then Fail
  else
    inf <-
      (if ss_type s =? 66 then   (* 'B' *)
         if i_player inf <? 0 then Fail else if i_init inf <? 0 then Fail
         else Ok (set_type SAP_B inf)
       else if ss_type s =? 67 then   (* 'C' *)
         if i_player inf <? 0 then Fail else if i_music inf <? 0 then Fail
         else Ok (set_type SAP_C inf)
       else if ss_type s =? 68 then   (* 'D' *)
         if i_init inf <? 0 then Fail else Ok (set_type SAP_D inf)
       else if ss_type s =? 83 then   (* 'S' *)
         if i_init inf <? 0 then Fail
         else
           let inf := set_type SAP_S inf in
           Ok (if i_fastplay inf <? 0 then set_fastplay 78 inf else inf)
       else Fail) ;;
    let inf := if i_fastplay inf <? 0 then set_fastplay (if i_ntsc inf then 262 else 312) inf else inf in
    c <- get module (i + 1) ;;
    if negb (c =? 255) then Fail else Ok (set_headerLen i inf).

(* asap.c:3841-3981 ASAPInfo_ParseSap *)
Definition parse_sap (self : info) (module : list Z) : outcome info :=
  v <- validate_sap module ;;
  if negb v then Fail
  else
    '(i, s) <- sap_loop (length module) module 5 (mkSapState (set_fastplay (-1) self) 0 0) ;;
    sap_finish module i s.

(* ------------------------------------------------------------------ *)
(* File name extensions                                                *)

(* asap.c:3983-3986 ASAPInfo_PackExt *)
Definition pack_ext (ext : list Z) : Z :=
  match ext with
  | [a; b] =>
    if (a <=? 122) && (b <=? 122)
    then Z.lor (Z.lor a (Z.shiftl b 8)) 2105376 else 0
  | [a; b; c] =>
    if (a <=? 122) && (b <=? 122) && (c <=? 122)
    then Z.lor (Z.lor (Z.lor a (Z.shiftl b 8)) (Z.shiftl c 16)) 2105376 else 0
  | _ => 0
  end.

(* asap.c:3991-3998: the loop of GetPackedExt; [rev] holds filename[i], filename[i-1], ...,
   filename[0], so the last element (index 0) is never examined ("--i > 0").
   The C shift ext << 8 is taken modulo 2^32 as unsigned-like wrap-around:
   for names with more than 4 characters after the dot it may overflow int. *)
Fixpoint packed_ext_loop (rev : list Z) (ext : Z) : Z :=
  match rev with
  | [] => 0
  | [_] => 0
  | c :: r =>
    if (c <=? 32) || (122 <? c) then 0
    else if c =? 46 then Z.lor ext 2105376
    else packed_ext_loop r ((Z.shiftl ext 8 + c) mod 4294967296)
  end.

(* asap.c:3988-4000 ASAPInfo_GetPackedExt *)
Definition get_packed_ext (filename : list Z) : Z := packed_ext_loop (rev filename) 0.

(* asap.c:4002-4023 ASAPInfo_IsOurPackedExt *)
Definition is_our_packed_ext (ext : Z) : bool :=
  match ext with
  | 7364979 | 6516067 | 3370339 | 7499107 | 7564643 | 6516068 | 7629924
  | 7630957 | 6582381 | 7630194 | 6516084 | 3698036 | 3304820 | 2122598 => true
  | _ => false
  end.

(* asap.c:4025-4028 ASAPInfo_IsOurFile *)
Definition is_our_file (filename : list Z) : bool := is_our_packed_ext (get_packed_ext filename).

(* asap.c:4030-4033 ASAPInfo_IsOurExt *)
Definition is_our_ext (ext : list Z) : bool := is_our_packed_ext (pack_ext ext).

(* ------------------------------------------------------------------ *)
(* Getters and setters                                                 *)

(* asap.c:4128-4137 ASAPInfo_CheckValidText *)
Definition check_valid_text (s : list Z) : bool :=
  if 127 <? len s then false else forallb is_valid_char s.

(* asap.c:4144-4150 ASAPInfo_SetAuthor *)
Definition api_set_author (self : info) (value : list Z) : bool * info :=
  if check_valid_text value then (true, set_author value self) else (false, self).

(* asap.c:4157-4163 ASAPInfo_SetTitle *)
Definition api_set_title (self : info) (value : list Z) : bool * info :=
  if check_valid_text value then (true, set_title value self) else (false, self).

(* asap.c:4175-4181 ASAPInfo_SetDate *)
Definition api_set_date (self : info) (value : list Z) : bool * info :=
  if check_valid_text value then (true, set_date value self) else (false, self).

(* asap.c:4165-4168 ASAPInfo_GetTitleOrFilename *)
Definition api_title_or_filename (self : info) : list Z :=
  match i_title self with [] => i_filename self | _ => i_title self end.

(* asap.c:4194-4202: the loop of CheckDate from index i; [l] is date[i..] *)
Fixpoint check_date_loop (n i : Z) (l : list Z) : bool :=
  match l with
  | [] => true
  | c :: r =>
    (if (i =? n - 5) || (i =? n - 8) then c =? 47 else (48 <=? c) && (c <=? 57))
    && check_date_loop n (i + 1) r
  end.

(* asap.c:4183-4204 ASAPInfo_CheckDate *)
Definition check_date (self : info) : Z :=
  let n := len (i_date self) in
  if (n =? 4) || (n =? 7) || (n =? 10) then
    if check_date_loop n 0 (i_date self) then n else -1
  else -1.

(* asap.c:4206-4209 ASAPInfo_GetTwoDateDigits *)
Definition two_date_digits (self : info) (i : Z) : outcome Z :=
  a <- cget (i_date self) i ;;
  b <- cget (i_date self) (i + 1) ;;
  Ok ((a - 48) * 10 + b - 48).

(* asap.c:4211-4217 ASAPInfo_GetYear *)
Definition api_get_year (self : info) : outcome Z :=
  let n := check_date self in
  if n <? 0 then Ok (-1)
  else
    a <- two_date_digits self (n - 4) ;;
    b <- two_date_digits self (n - 2) ;;
    Ok (a * 100 + b).

(* asap.c:4219-4225 ASAPInfo_GetMonth *)
Definition api_get_month (self : info) : outcome Z :=
  let n := check_date self in
  if n <? 7 then Ok (-1) else two_date_digits self (n - 7).

(* asap.c:4227-4233 ASAPInfo_GetDayOfMonth *)
Definition api_get_day (self : info) : outcome Z :=
  let n := check_date self in
  if negb (n =? 10) then Ok (-1) else two_date_digits self 0.

(* asap.c:4250-4256 ASAPInfo_SetDefaultSong *)
Definition api_set_default_song (self : info) (song : Z) : bool * info :=
  if (song <? 0) || (i_songs self <=? song) then (false, self) else (true, set_defsong song self).

(* asap.c:4258-4261 ASAPInfo_GetDuration *)
Definition api_get_duration (self : info) (song : Z) : outcome Z := get (i_durations self) song.

(* asap.c:4271-4274 ASAPInfo_GetLoop *)
Definition api_get_loop (self : info) (song : Z) : outcome bool :=
  if song <? 0 then UB UbRead
  else match nth_error (i_loops self) (Z.to_nat song) with Some b => Ok b | None => UB UbRead end.

(* asap.c:4263-4269 ASAPInfo_SetDuration *)
Definition api_set_duration (self : info) (song duration : Z) : outcome (bool * info) :=
  if (song <? 0) || (i_songs self <=? song) then Ok (false, self)
  else l <- set_nth (i_durations self) song duration ;; Ok (true, set_durations l self).

(* asap.c:4276-4282 ASAPInfo_SetLoop *)
Definition api_set_loop (self : info) (song : Z) (loop : bool) : outcome (bool * info) :=
  if (song <? 0) || (i_songs self <=? song) then Ok (false, self)
  else l <- set_nth (i_loops self) song loop ;; Ok (true, set_loops l self).

(* asap.c:4289-4292 ASAPInfo_CanSetNtsc *)
Definition api_can_set_ntsc (self : info) : bool :=
  module_type_eqb (i_type self) SAP_B && (i_fastplay self =? (if i_ntsc self then 262 else 312)).

(* conversion of an int64_t to int; implementation-defined wrap on every supported compiler *)
Definition wrap32 (v : Z) : Z := (v + 2147483648) mod 4294967296 - 2147483648.

(* asap.c:4301: duration conversion in 64-bit arithmetic, truncating division of a positive number *)
Definition convert_duration (ntsc : bool) (duration : Z) : Z :=
  wrap32 (if ntsc then duration * 5956963 / 7159090 else duration * 7159090 / 5956963).

(* asap.c:4298-4303: the loop of SetNtsc over the first [n] songs *)
Fixpoint set_ntsc_durations (ntsc : bool) (n : nat) (l : list Z) : list Z :=
  match n, l with
  | S n, d :: r => (if 0 <? d then convert_duration ntsc d else d) :: set_ntsc_durations ntsc n r
  | _, _ => l
  end.

(* asap.c:4294-4304 ASAPInfo_SetNtsc *)
Definition api_set_ntsc (self : info) (ntsc : bool) : outcome info :=
  if len (i_durations self) <? i_songs self then UB UbWrite
  else Ok (set_durations (set_ntsc_durations ntsc (Z.to_nat (i_songs self)) (i_durations self))
    (set_fastplay (if ntsc then 262 else 312) (set_ntsc ntsc self))).

(* asap.c:4306-4320 ASAPInfo_GetTypeLetter *)
Definition api_get_type_letter (self : info) : Z :=
  match i_type self with SAP_B => 66 | SAP_C => 67 | SAP_D => 68 | SAP_S => 83 | _ => 0 end.

(* asap.c:4327-4331 ASAPInfo_GetPlayerRateHz *)
Definition api_player_rate_hz (self : info) : outcome Z :=
  if i_fastplay self =? 0 then UB UbOverflow
  else Ok (Z.quot ((if i_ntsc self then 15699 else 15556) + Z.shiftr (i_fastplay self) 1) (i_fastplay self)).

(* asap.c:4338-4344 ASAPInfo_SetMusicAddress *)
Definition api_set_music_address (self : info) (address : Z) : bool * info :=
  if (address <? 0) || (65535 <=? address) then (false, self) else (true, set_music address self).

(* asap.c:4053-4061: the loop of Load over the file name from its end; returns (basename, ext).
   [i] is the index of the first element of [rev] *)
Fixpoint load_name_loop (rev : list Z) (i ext : Z) : Z * Z :=
  match rev with
  | [] => (0, ext)
  | c :: r =>
    if (c =? 47) || (c =? 92) then (i + 1, ext)
    else load_name_loop r (i - 1) (if c =? 46 then i else ext)
  end.

(* asap.c:4050-4067: the base name stored by Load, or Fail when there is no dot *)
Definition load_filename (filename : list Z) : outcome (list Z) :=
  let '(basename, ext) := load_name_loop (rev filename) (len filename - 1) (-1) in
  if ext <? 0 then Fail
  else
    let ext := ext - basename in
    let ext := if 127 <? ext then 127 else ext in
    get_range filename basename (basename + ext).

(* asap.c:4075-4091: values every Load starts from *)
Definition load_defaults (self : info) : info :=
  mkInfo (i_filename self) [] [] [] 1 1 0 (repeat (-1) 32) (repeat false 32) false (i_type self)
    312 (-1) (-1) (-1) (-1) 0 (i_songPos self).
