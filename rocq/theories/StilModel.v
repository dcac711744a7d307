(* Model of astil.c: the parser of STIL.txt.  Files are lists of bytes, char arrays are lists, C strings are lists without the NUL. *)
From Coq Require Import String.
From Verif Require Import Base Loop InfoModel WriterModel.

(* astil.c:29-30 ASTIL_MAX_TEXT_LENGTH, ASTIL_MAX_COMMENT_LENGTH *)
Definition max_text : Z := 100.
Definition max_comment : Z := 1000.
(* astil.c:31 ASTIL_MAX_COVERS *)
Definition max_covers : Z := 10.

(* astil.c:33-40 struct ASTILCover *)
Record cover := mkCover {
  cv_start : Z;            (* startSeconds *)
  cv_end : Z;              (* endSeconds *)
  cv_title : list Z;       (* titleAndSource[101] *)
  cv_artist : list Z;      (* artist[101] *)
  cv_comment : list Z      (* comment[1001] *)
}.

(* astil.c:42-53 struct ASTIL *)
Record stil := mkStil {
  sl_nCovers : Z;
  sl_utf8 : bool;          (* isUTF8 *)
  sl_filename : list Z;    (* stilFilename[FILENAME_MAX] *)
  sl_title : list Z;       (* title[101] *)
  sl_author : list Z;      (* author[101] *)
  sl_directory : list Z;   (* directoryComment[1001] *)
  sl_file : list Z;        (* fileComment[1001] *)
  sl_song : list Z;        (* songComment[1001] *)
  sl_covers : list cover   (* covers[10] *)
}.
Definition set_covers (s : stil) n covers := mkStil n (sl_utf8 s) (sl_filename s) (sl_title s) (sl_author s) (sl_directory s) (sl_file s) (sl_song s) covers.
Definition set_utf8 (s : stil) v := mkStil (sl_nCovers s) v (sl_filename s) (sl_title s) (sl_author s) (sl_directory s) (sl_file s) (sl_song s) (sl_covers s).
Definition set_filename (s : stil) v := mkStil (sl_nCovers s) (sl_utf8 s) v (sl_title s) (sl_author s) (sl_directory s) (sl_file s) (sl_song s) (sl_covers s).
Definition set_title (s : stil) v := mkStil (sl_nCovers s) (sl_utf8 s) (sl_filename s) v (sl_author s) (sl_directory s) (sl_file s) (sl_song s) (sl_covers s).
Definition set_author (s : stil) v := mkStil (sl_nCovers s) (sl_utf8 s) (sl_filename s) (sl_title s) v (sl_directory s) (sl_file s) (sl_song s) (sl_covers s).
Definition set_directory (s : stil) v := mkStil (sl_nCovers s) (sl_utf8 s) (sl_filename s) (sl_title s) (sl_author s) v (sl_file s) (sl_song s) (sl_covers s).
Definition set_file (s : stil) v := mkStil (sl_nCovers s) (sl_utf8 s) (sl_filename s) (sl_title s) (sl_author s) (sl_directory s) v (sl_song s) (sl_covers s).
Definition set_song (s : stil) v := mkStil (sl_nCovers s) (sl_utf8 s) (sl_filename s) (sl_title s) (sl_author s) (sl_directory s) (sl_file s) v (sl_covers s).

(* astil.c:66-74 ASTIL_FindPreviousSlash; n is pos *)
Fixpoint previous_slash (n : nat) (filename : list Z) : outcome Z :=
  match n with
  | O => Ok (-1)
  | S n =>
    c <- cget filename (Z.of_nat n) ;;
    if (c =? 47) || (c =? 92) then Ok (Z.of_nat n) else previous_slash n filename
  end.

(* astil.c:76-82 ASTIL_ReadUTF8BOM *)
Definition read_bom (f : list Z) : bool * list Z :=
  match f with
  | c0 :: c1 :: c2 :: r => if (c0 =? 0xef) && (c1 =? 0xbb) && (c2 =? 0xbf) then (true, r) else (false, f)
  | _ => (false, f)
  end.

(* astil.c:93-94: the length without trailing blanks; n is len *)
Fixpoint trimmed (n : nat) (result : list Z) : outcome Z :=
  match n with
  | O => Ok 0
  | S n =>
    c <- get result (Z.of_nat n) ;;
    if (c =? 32) || (c =? 9) then trimmed n result else Ok (Z.of_nat (S n))
  end.
(* astil.c:84-106 ASTIL_ReadLine: the value returned, the rest of the file and the array *)
Fixpoint read_line_from (len : Z) (f : list Z) (result : list Z) : outcome (Z * list Z * list Z) :=
  match f with
  | [] => result <- set_nth result 0 0 ;; Ok (-1, [], result)
  | c :: f =>
    if c =? 10 then
      len <- trimmed (Z.to_nat len) result ;;
      result <- set_nth result len 0 ;;
      Ok (len, f, result)
    else if c =? 13 then read_line_from len f result
    else if len <? max_text then result <- set_nth result len c ;; read_line_from (len + 1) f result
    else read_line_from len f result
  end.
Definition read_line (f : list Z) (result : list Z) : outcome (Z * list Z * list Z) := read_line_from 0 f result.

(* astil.c:108-121 ASTIL_MatchFilename, from index len on; filename is the rest of the C string *)
Fixpoint match_filename (line : list Z) (len : Z) (filename : list Z) : outcome Z :=
  c <- get line len ;;
  match filename with
  | [] => if c =? 0 then Ok (-1) else Ok len
  | x :: filename => if (c =? x) || ((c =? 47) && (x =? 92)) then match_filename line (len + 1) filename else Ok len
  end.

(* memcmp(line, s, strlen(s)) == 0 *)
Definition starts (line : list Z) (s : string) : outcome bool :=
  l <- get_range line 0 (len (str s)) ;; Ok (eqb_list l (str s)).

(* astil.c:123-143 ASTIL_ReadComment: the rest of the file, line and comment *)
Definition comment_step (st : list Z * list Z * list Z * Z) : outcome ((list Z * list Z * list Z * Z) + (list Z * list Z * list Z)) :=
  let '(f, line, comment, len) := st in
  '(len2, f, line) <- read_line f line ;;
  b <- (if 9 <=? len2 then starts line "         " else Ok false) ;;
  if b then
    if len <? max_comment - max_text then
      comment <- set_nth comment len 10 ;;
      text <- get_range line 9 (9 + (len2 - 9) + 1) ;;
      comment <- put_range comment (len + 1) text ;;
      continue_ (f, line, comment, len + 1 + (len2 - 9))
    else continue_ (f, line, comment, len)
  else leave (f, line, comment).
Definition read_comment (f line comment : list Z) : outcome (list Z * list Z * list Z) :=
  '(n, f, line) <- read_line f line ;;
  b <- (if 9 <=? n then starts line "COMMENT: " else Ok false) ;;
  if b then
    text <- get_range line 9 (9 + (n - 9) + 1) ;;
    comment <- put_range comment 0 text ;;
    loop (length f) comment_step (f, line, comment, n - 9)
  else Ok (f, line, comment).

(* astil.c:145-158 ASTIL_ParseInt: the value and *pos *)
Definition digit (c : Z) : bool := (48 <=? c) && (c <=? 57).
Fixpoint parse_digits (n : nat) (s : list Z) (pos i result : Z) : outcome (Z * Z) :=
  c <- get s i ;;
  if digit c then
    if 10 <=? result then Ok (-1, pos)
    else match n with O => OutOfFuel | S n => parse_digits n s pos (i + 1) (10 * result + c - 48) end
  else if i =? pos then Ok (-1, pos)
  else Ok (result, i).
Definition parse_int (s : list Z) (pos : Z) : outcome (Z * Z) := parse_digits (length s) s pos pos 0.

(* astil.c:160-167 ASTIL_ReadUntilSongNo *)
Definition until_step (st : list Z * list Z) : outcome ((list Z * list Z) + (bool * list Z * list Z)) :=
  let '(f, line) := st in
  '(n, f, line) <- read_line f line ;;
  if 0 <? n then
    c0 <- get line 0 ;;
    c1 <- (if c0 =? 40 then get line 1 else Ok 0) ;;
    if (c0 =? 40) && (c1 =? 35) then leave (true, f, line) else continue_ (f, line)
  else leave (false, f, line).
Definition until_song (f line : list Z) : outcome (bool * list Z * list Z) := loop (length f) until_step (f, line).

(* astil.c:169-178 ASTILCover_ParseTimestamp: the value and *pos *)
Definition parse_timestamp (s : list Z) (pos : Z) : outcome (Z * Z) :=
  '(minutes, pos) <- parse_int s pos ;;
  if 0 <=? minutes then
    c <- get s pos ;;
    let pos := pos + 1 in
    if c =? 58 then
      '(seconds, pos) <- parse_int s pos ;;
      Ok (if 0 <=? seconds then 60 * minutes + seconds else -1, pos)
    else Ok (-1, pos)
  else Ok (-1, pos).

(* the C string at s + i, read by strcmp, strcpy and strrchr *)
Fixpoint string_in (l : list Z) : outcome (list Z) :=
  match l with
  | [] => UB UbRead
  | c :: r => if c =? 0 then Ok [] else s <- string_in r ;; Ok (c :: s)
  end.
Definition string_at (s : list Z) (i : Z) : outcome (list Z) := string_in (skipn (Z.to_nat i) s).
Definition strcpy (result src : list Z) : outcome (list Z) := put_range result 0 (src ++ [0]).

(* astil.c:180-186 ASTILCover_SetText *)
Definition set_text (result src : list Z) : outcome (list Z) :=
  if eqb_list src (str "<?>") then set_nth result 0 0 else strcpy result src.

(* strrchr(s, '(') *)
Fixpoint last_paren (s : list Z) : option Z :=
  match s with
  | [] => None
  | c :: r => match last_paren r with Some i => Some (i + 1) | None => if c =? 40 then Some 0 else None end
  end.

(* astil.c:188-219 ASTILCover_Load *)
Definition cover_times (line : list Z) : outcome (Z * Z * list Z) :=
  s <- string_at line 0 ;;
  match last_paren s with
  | None => Ok (-1, -1, line)
  | Some ts =>
    let i := ts + 1 in
    '(startSeconds, i) <- parse_timestamp line i ;;
    dash <- (if 0 <=? startSeconds then c <- get line i ;; Ok (c =? 45) else Ok false) ;;
    '(endSeconds, i) <- (if dash then parse_timestamp line (i + 1) else Ok (-1, i)) ;;
    c <- get line i ;;
    c1 <- (if c =? 41 then get line (i + 1) else Ok 1) ;;
    if (c =? 41) && (c1 =? 0) then
      before <- get line (ts - 1) ;;
      let len := if before =? 32 then ts - 1 else ts in
      line <- set_nth line len 0 ;;
      Ok (startSeconds, endSeconds, line)
    else Ok (-1, -1, line)
  end.
Definition cover_load (self : cover) (f line : list Z) : outcome (cover * list Z * list Z) :=
  '(startSeconds, endSeconds, line) <- cover_times line ;;
  text <- string_at line 9 ;;
  title <- set_text (cv_title self) text ;;
  artist <- set_nth (cv_artist self) 0 0 ;;
  comment <- set_nth (cv_comment self) 0 0 ;;
  '(n, f, line) <- read_line f line ;;
  b <- (if 9 <=? n then starts line " ARTIST: " else Ok false) ;;
  if b then
    text <- string_at line 9 ;;
    artist <- set_text artist text ;;
    '(f, line, comment) <- read_comment f line comment ;;
    Ok (mkCover startSeconds endSeconds title artist comment, f, line)
  else Ok (mkCover startSeconds endSeconds title artist comment, f, line).

(* astil.c:221-238 ASTIL_ReadStilBlock *)
Definition names_step (st : stil * list Z * list Z) : outcome ((stil * list Z * list Z) + (bool * stil * list Z * list Z)) :=
  let '(self, f, line) := st in
  isName <- starts line "   NAME: " ;;
  isAuthor <- (if isName then Ok false else starts line " AUTHOR: ") ;;
  if isName || isAuthor then
    text <- string_at line 9 ;;
    self <- (if isName then t <- strcpy (sl_title self) text ;; Ok (set_title self t)
             else t <- strcpy (sl_author self) text ;; Ok (set_author self t)) ;;
    '(n, f, line) <- read_line f line ;;
    if n <? 9 then leave (true, self, f, line) else continue_ (self, f, line)
  else leave (false, self, f, line).
Definition get_cover (l : list cover) (i : Z) : outcome cover :=
  if i <? 0 then UB UbRead else match nth_error l (Z.to_nat i) with Some c => Ok c | None => UB UbRead end.
Definition covers_step (st : stil * list Z * list Z) : outcome ((stil * list Z * list Z) + (stil * list Z * list Z)) :=
  let '(self, f, line) := st in
  isTitle <- (if sl_nCovers self <? max_covers then starts line "  TITLE: " else Ok false) ;;
  if isTitle then
    let n := sl_nCovers self in
    c <- get_cover (sl_covers self) n ;;
    '(c, f, line) <- cover_load c f line ;;
    covers <- set_nth (sl_covers self) n c ;;
    continue_ (set_covers self (n + 1) covers, f, line)
  else leave (self, f, line).
Definition read_block (self : stil) (f line : list Z) : outcome (stil * list Z * list Z) :=
  '(done, self, f, line) <- loop (length f) names_step (self, f, line) ;;
  if done then Ok (self, f, line) else loop 10 covers_step (self, f, line).

(* astil.c:240-298 ASTIL_Load.  fs are the files that exist, line is the uninitialised array. *)
(* 255-269: looking for STIL.txt; n bounds the number of directories *)
Fixpoint find_stil (n : nat) (fs : list Z -> option (list Z)) (filename : list Z) (rootSlash : Z) (buffer : list Z) : outcome (option (Z * list Z) * list Z) :=
  if rootSlash <? 0 then buffer <- set_nth buffer 0 0 ;; Ok (None, buffer)
  else
    buffer <- put_range buffer (rootSlash + 1) (str "Docs/STIL.txt" ++ [0]) ;;
    separator <- get buffer rootSlash ;;
    buffer <- set_nth buffer (rootSlash + 5) separator ;;
    path <- string_at buffer 0 ;;
    match fs path with
    | Some f => Ok (Some (rootSlash, f), buffer)
    | None =>
      buffer <- put_range buffer (rootSlash + 1) (str "STIL.txt" ++ [0]) ;;
      path <- string_at buffer 0 ;;
      match fs path with
      | Some f => Ok (Some (rootSlash, f), buffer)
      | None =>
        next <- previous_slash (Z.to_nat rootSlash) filename ;;
        match n with O => OutOfFuel | S n => find_stil n fs filename next buffer end
      end
    end.

(* 277-285: looking for the song *)
Definition song_step (song : Z) (st : stil * list Z * list Z) : outcome ((stil * list Z * list Z) + (stil * list Z * list Z)) :=
  let '(self, f, line) := st in
  '(v, i) <- parse_int line 2 ;;
  c <- (if v - 1 =? song then get line i else Ok 0) ;;
  c1 <- (if c =? 41 then get line (i + 1) else Ok 1) ;;
  if (c =? 41) && (c1 =? 0) then
    '(f, line, comment) <- read_comment f line (sl_song self) ;;
    '(self, f, line) <- read_block (set_song self comment) f line ;;
    leave (self, f, line)
  else
    '(again, f, line) <- until_song f line ;;
    if again then continue_ (self, f, line) else leave (self, f, line).

(* 272-295: the lines of the file *)
Definition line_step (filename : list Z) (lastSlash rootSlash song : Z) (st : stil * list Z * list Z) : outcome ((stil * list Z * list Z) + stil) :=
  let '(self, f, line) := st in
  '(n, f, line) <- read_line f line ;;
  if n <? 0 then leave self
  else
    len <- match_filename line 0 (skipn (Z.to_nat rootSlash) filename) ;;
    if len =? -1 then
      '(f, line, comment) <- read_comment f line (sl_file self) ;;
      let self := set_file self comment in
      c0 <- get line 0 ;;
      c1 <- (if c0 =? 40 then get line 1 else Ok 0) ;;
      '(self, f, line) <- (if (c0 =? 40) && (c1 =? 35) then loop (length f) (song_step song) (self, f, line) else read_block self f line) ;;
      leave self
    else
      c <- (if len =? lastSlash - rootSlash + 1 then get line len else Ok 1) ;;
      if c =? 0 then
        '(f, line, comment) <- read_comment f line (sl_directory self) ;;
        continue_ (set_directory self comment, f, line)
      else continue_ (self, f, line).

Definition astil_load (fs : list Z -> option (list Z)) (filename : list Z) (song : Z) (line : list Z) (self : stil) : outcome (bool * stil) :=
  lastSlash <- previous_slash (length filename) filename ;;
  stilFilename <- set_nth (sl_filename self) 0 0 ;;
  title <- set_nth (sl_title self) 0 0 ;;
  author <- set_nth (sl_author self) 0 0 ;;
  directory <- set_nth (sl_directory self) 0 0 ;;
  file <- set_nth (sl_file self) 0 0 ;;
  song_ <- set_nth (sl_song self) 0 0 ;;
  let self := mkStil 0 (sl_utf8 self) stilFilename title author directory file song_ (sl_covers self) in
  if (lastSlash <? 0) || (len (sl_filename self) - 14 <=? lastSlash) then Ok (false, self)
  else
    prefix <- get_range filename 0 (lastSlash + 1) ;;
    buffer <- put_range (sl_filename self) 0 prefix ;;
    '(found, buffer) <- find_stil (length filename) fs filename lastSlash buffer ;;
    let self := set_filename self buffer in
    match found with
    | None => Ok (false, self)
    | Some (rootSlash, f) =>
      let '(utf8, f) := read_bom f in
      self <- loop (length f) (line_step filename lastSlash rootSlash song) (set_utf8 self utf8, f, line) ;;
      Ok (true, self)
    end.
