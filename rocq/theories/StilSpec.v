(* What STIL.txt says, stated on the list of its lines: the meaning of ASTIL_Load and of the getters of astil.h.
   No arrays, no positions in a buffer, no file position. *)
From Coq Require Import String.
From Verif Require Import Base InfoModel StilModel.

(* ---- lines ---- *)
(* the text of a line as the parser sees it: no carriage returns, at most 100 characters, no trailing blanks *)
Definition blank (c : Z) : bool := (c =? 32) || (c =? 9).
Fixpoint drop_while (p : Z -> bool) (l : list Z) : list Z :=
  match l with [] => [] | c :: r => if p c then drop_while p r else l end.
Fixpoint take_while (p : Z -> bool) (l : list Z) : list Z :=
  match l with [] => [] | c :: r => if p c then c :: take_while p r else [] end.
Definition clean (raw : list Z) : list Z := rev (drop_while blank (rev (firstn 100 (filter (fun c => negb (c =? 13)) raw)))).

(* the first line, without its line feed, and what follows; None if there is no line feed *)
Fixpoint cut_line (f : list Z) : option (list Z * list Z) :=
  match f with
  | [] => None
  | c :: r => if c =? 10 then Some ([], r) else match cut_line r with Some (l, r') => Some (c :: l, r') | None => None end
  end.

(* all lines that end in a line feed *)
Fixpoint split_lines (begun f : list Z) : list (list Z) :=
  match f with
  | [] => []
  | c :: r => if c =? 10 then rev begun :: split_lines [] r else split_lines (c :: begun) r
  end.
Definition lines (f : list Z) : list (list Z) := map clean (split_lines [] f).

(* ---- fields ---- *)
Definition prefixed (p : string) (l : list Z) : bool := eqb_list (firstn (length (str p)) l) (str p).
Definition field (l : list Z) : list Z := skipn 9 l.
Definition known (t : list Z) : list Z := if eqb_list t (str "<?>") then [] else t.

(* A comment at the beginning of ls, if there is one, and the lines after it.
   Continuation lines are dropped once the comment has 900 characters. *)
Fixpoint continued (t : list Z) (ls : list (list Z)) : list Z * list (list Z) :=
  match ls with
  | l :: r => if prefixed "         " l then continued (if len t <? 900 then t ++ 10 :: field l else t) r else (t, ls)
  | [] => (t, ls)
  end.
Definition comment (old : list Z) (ls : list (list Z)) : list Z * list (list Z) :=
  match ls with
  | l :: r => if prefixed "COMMENT: " l then continued (field l) r else (old, ls)
  | [] => (old, ls)
  end.

(* ---- times of a cover ---- *)
Definition value (d : list Z) : Z := fold_left (fun v c => 10 * v + (c - 48)) d 0.
(* a decimal number below 100 *)
Definition number (s : list Z) : option (Z * list Z) :=
  let d := take_while digit s in
  match d with
  | [] => None
  | _ => if value d <? 100 then Some (value d, drop_while digit s) else None
  end.
(* minutes:seconds; the second component is None if the parser ran past the end of the line *)
Definition stamp (s : list Z) : Z * option (list Z) :=
  match number s with
  | None => (-1, Some s)
  | Some (m, []) => (-1, None)
  | Some (m, c :: r) =>
    if c =? 58 then match number r with Some (x, r') => (60 * m + x, Some r') | None => (-1, Some r) end
    else (-1, Some r)
  end.
(* start, end and the rest of the line *)
Definition range (s : list Z) : Z * Z * option (list Z) :=
  match stamp s with
  | (start, Some (c :: r)) => if (0 <=? start) && (c =? 45) then let '(finish, r') := stamp r in (start, finish, r') else (start, -1, Some (c :: r))
  | (start, r) => (start, -1, r)
  end.
Definition closes (r : list Z) : bool :=
  match r with
  | c :: r => (c =? 41) && (at_ r 0 =? 0)
  | [] => false
  end.
(* the title of the cover in line l: start, end and text.  b is used only if the times run past the end of the line. *)
Definition times (l : list Z) (b : bool) : Z * Z * list Z :=
  let t := cstr (field l) in
  match last_paren t with
  | None => (-1, -1, t)
  | Some k =>
    let '(start, finish, r) := range (skipn (9 + Z.to_nat k + 1) l) in
    if match r with Some r => closes r | None => b end
    then (start, finish, if k =? 0 then t else firstn (Z.to_nat (if at_ t (k - 1) =? 32 then k - 1 else k)) t)
    else (-1, -1, t)
  end.
(* the times run past the end of the line *)
Definition dangling (l : list Z) : bool :=
  prefixed "  TITLE: " l &&
  match last_paren (cstr (field l)) with
  | None => false
  | Some k => match range (skipn (9 + Z.to_nat k + 1) l) with (_, _, None) => true | _ => false end
  end.

(* ---- covers, names, songs ---- *)
(* what the getters of a cover return: start, end, title and source, artist, comment *)
Definition cover_info : Type := Z * Z * list Z * list Z * list Z.
Definition cover_of (l : list Z) (r : list (list Z)) (b : bool) : cover_info * list (list Z) :=
  let '(start, finish, t) := times l b in
  match r with
  | a :: r' =>
    if prefixed " ARTIST: " a then
      let '(c, r'') := comment [] r' in
      ((start, finish, known t, known (cstr (field a)), cstr c), r'')
    else ((start, finish, known t, [], []), r)
  | [] => ((start, finish, known t, [], []), r)
  end.
Fixpoint covers_of (n : nat) (ls : list (list Z)) (bs : list bool) : list cover_info :=
  match n, ls with
  | S n, l :: r =>
    if prefixed "  TITLE: " l then let '(c, r') := cover_of l r (hd false bs) in c :: covers_of n r' (tl bs) else []
  | _, _ => []
  end.
Fixpoint names_of (title author : list Z) (ls : list (list Z)) : list Z * list Z * list (list Z) :=
  match ls with
  | l :: r =>
    if prefixed "   NAME: " l then names_of (cstr (field l)) author r
    else if prefixed " AUTHOR: " l then names_of title (cstr (field l)) r
    else (title, author, ls)
  | [] => (title, author, ls)
  end.
(* "(#n)" *)
Definition song_line (song : Z) (l : list Z) : bool :=
  prefixed "(#" l && match number (skipn 2 l) with Some (v, r) => (v =? song + 1) && closes r | None => false end.
(* the lines after "(#n)", not looking beyond an empty line *)
Fixpoint after_song (song : Z) (ls : list (list Z)) : option (list (list Z)) :=
  match ls with
  | l :: r => if len l =? 0 then None else if song_line song l then Some r else after_song song r
  | [] => None
  end.

(* ---- the whole file ---- *)
Definition same_char (c x : Z) : bool := (c =? x) || ((c =? 47) && (x =? 92)).
Fixpoint same_path (l path : list Z) : bool :=
  match l, path with
  | [], [] => true
  | c :: l, x :: path => same_char c x && same_path l path
  | _, _ => false
  end.
(* the directory comment and the lines after the entry of the file *)
Fixpoint entry (n : nat) (dir path : list Z) (dirc : list Z) (ls : list (list Z)) : list Z * option (list (list Z)) :=
  match n, ls with
  | S n, l :: r =>
    if same_path (cstr l) path then (dirc, Some r)
    else if same_path (cstr l) dir then let '(c, r') := comment dirc r in entry n dir path c (tl r')
    else entry n dir path dirc r
  | _, _ => (dirc, None)
  end.

Record info := mkInfo {
  in_title : list Z;
  in_author : list Z;
  in_directory : list Z;
  in_file : list Z;
  in_song : list Z;
  in_covers : list cover_info
}.
Definition block (dirc filec songc : list Z) (ls : list (list Z)) (bs : list bool) : info :=
  let '(title, author, r) := names_of [] [] ls in
  mkInfo title author (cstr dirc) (cstr filec) (cstr songc) (covers_of 10 r bs).
Definition after_entry (song : Z) (dirc : list Z) (o : option (list (list Z))) (bs : list bool) : info :=
  match o with
  | None => mkInfo [] [] (cstr dirc) [] [] []
  | Some r =>
    let '(filec, r) := comment [] r in
    if prefixed "(#" (hd [] r) then
      match after_song song r with
      | None => mkInfo [] [] (cstr dirc) (cstr filec) [] []
      | Some r => let '(songc, r) := comment [] r in block dirc filec songc r bs
      end
    else block dirc filec [] r bs
  end.
Definition info_of (dir path : list Z) (song : Z) (ls : list (list Z)) (bs : list bool) : info :=
  let '(dirc, o) := entry (length ls) dir path [] ls in after_entry song dirc o bs.

(* ---- where STIL.txt is looked for ---- *)
Definition is_slash (c : Z) : bool := (c =? 47) || (c =? 92).
(* positions of the slashes, last first *)
Fixpoint slashes (i : Z) (filename : list Z) : list Z :=
  match filename with [] => [] | c :: r => slashes (i + 1) r ++ (if is_slash c then [i] else []) end.
Definition tried (filename : list Z) (p : Z) : list (Z * list Z) :=
  let dir := firstn (Z.to_nat (p + 1)) filename in
  [(p, dir ++ str "Docs" ++ [at_ filename p] ++ str "STIL.txt"); (p, dir ++ str "STIL.txt")].
Definition candidates (filename : list Z) : list (Z * list Z) := flat_map (tried filename) (slashes 0 filename).
Fixpoint first_file (fs : list Z -> option (list Z)) (l : list (Z * list Z)) : option (Z * list Z * list Z) :=
  match l with
  | [] => None
  | (p, name) :: r => match fs name with Some f => Some (p, name, f) | None => first_file fs r end
  end.

(* the file that is used: the position of its directory's slash, its name and its contents *)
Definition found (filename_max : Z) (fs : list Z -> option (list Z)) (filename : list Z) : option (Z * list Z * list Z) :=
  if hd 0 (slashes 0 filename) <? filename_max - 14 then first_file fs (candidates filename) else None.

(* an UTF-8 byte order mark *)
Definition marked (f : list Z) : bool := eqb_list (firstn 3 f) [239; 187; 191].
Definition text (f : list Z) : list Z := if marked f then skipn 3 f else f.

(* the directory of the song and the song, relative to the directory of STIL.txt *)
Definition below (p : Z) (filename : list Z) : list Z := skipn (Z.to_nat p) filename.
Definition dir_of (p : Z) (filename : list Z) : list Z := firstn (Z.to_nat (hd 0 (slashes 0 filename) - p + 1)) (below p filename).

(* ---- what the getters return ---- *)
Definition cover_view (c : cover) : cover_info := (cv_start c, cv_end c, cstr (cv_title c), cstr (cv_artist c), cstr (cv_comment c)).
Definition view (s : stil) : info :=
  mkInfo (cstr (sl_title s)) (cstr (sl_author s)) (cstr (sl_directory s)) (cstr (sl_file s)) (cstr (sl_song s))
    (map cover_view (firstn (Z.to_nat (sl_nCovers s)) (sl_covers s))).
Definition nothing : info := mkInfo [] [] [] [] [] [].

(* the sizes of the arrays of ASTIL *)
Definition cover_sized (c : cover) : Prop := len (cv_title c) = 101 /\ len (cv_artist c) = 101 /\ len (cv_comment c) = 1001.
Definition sized (filename_max : Z) (s : stil) : Prop :=
  len (sl_filename s) = filename_max /\ len (sl_title s) = 101 /\ len (sl_author s) = 101 /\
  len (sl_directory s) = 1001 /\ len (sl_file s) = 1001 /\ len (sl_song s) = 1001 /\
  len (sl_covers s) = 10 /\ Forall cover_sized (sl_covers s).
