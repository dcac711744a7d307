(* Model of the part of asapconv.c that names the output files: open_output_file and the loops calling it.
   C strings are lists without the NUL, the buffer output_file is a list of FILENAME_MAX characters. *)
From Coq Require Import String.
From Verif Require Import Base InfoModel WriterModel.

(* What open_output_file reads: the command line, the file being converted and the module's metadata.
   The tags are what the ASAPInfo getters return, arbitrary strings here. *)
Record job := mkJob {
  j_pattern : list Z;      (* arg_output *)
  j_input : list Z;        (* input_file *)
  j_author : list Z;       (* ASAPInfo_GetAuthor *)
  j_name : list Z;         (* ASAPInfo_GetTitleOrFilename *)
  j_date : list Z;         (* ASAPInfo_GetDate *)
  j_ext : option (list Z); (* ASAPInfo_GetOriginalModuleExt, None for NULL *)
  j_songs : Z;             (* ASAPInfo_GetSongs *)
  j_default : Z;           (* ASAPInfo_GetDefaultSong *)
  j_arg_song : Z;          (* arg_song, -1 unless -s was given *)
  j_allow : bool;          (* allow_file_per_song *)
  j_can_write : list Z -> bool (* whether fopen(name, "wb") succeeds *)
}.

(* strrchr as an index *)
Fixpoint last_index (c : Z) (s : list Z) : option Z :=
  match s with
  | [] => None
  | x :: r =>
    match last_index c r with
    | Some i => Some (i + 1)
    | None => if x =? c then Some 0 else None
    end
  end.

(* asapconv.c:207-212: input_file after its last slash *)
Fixpoint past_slashes (best p : list Z) : list Z :=
  match p with
  | [] => best
  | c :: r => past_slashes (if (c =? 47) || (c =? 92) then r else best) r
  end.

(* sprintf "%d" of a non-negative int; ten digits are enough *)
Fixpoint dec_digits (n : nat) (v : Z) : list Z :=
  match n with
  | O => []
  | S n => if v <? 10 then [48 + v] else dec_digits n (v / 10) ++ [48 + v mod 10]
  end.
Definition print_int (v : Z) : list Z := dec_digits 10 v.

(* The variables of the loop; output_ptr is an index into output_file. *)
Record naming := mkNaming {
  n_file : list Z;         (* output_file *)
  n_ptr : Z;               (* output_ptr - output_file *)
  n_per_song : bool;       (* file_per_song *)
  n_song : Z               (* current_song *)
}.

(* asapconv.c:271-289: a character of a tag as stored *)
Definition tag_char (c : Z) : Z :=
  if (c =? 60) || (c =? 62) || (c =? 58) || (c =? 47) || (c =? 92) || (c =? 124) || (c =? 63) || (c =? 42)
  then 95 else c.

(* asapconv.c:269-270,289 and 293-295: a bounds-checked store; fatal_error is Fail *)
Definition store (s : naming) (c : Z) : outcome naming :=
  if len (n_file s) - 1 <=? n_ptr s then Fail
  else
    f <- set_nth (n_file s) (n_ptr s) c ;;
    Ok (mkNaming f (n_ptr s + 1) (n_per_song s) (n_song s)).

(* asapconv.c:268-290 *)
Fixpoint store_tag (s : naming) (tag : list Z) : outcome naming :=
  match tag with
  | [] => Ok s
  | c :: r => s <- store s (tag_char c) ;; store_tag s r
  end.

(* asapconv.c:227-233; the difference of pointers is undefined when there is no '.' *)
Definition insert_input (s : naming) (input : list Z) : outcome naming :=
  match last_index 46 input with
  | None => UB UbNegSize
  | Some n =>
    if len (n_file s) <=? n_ptr s + n then Fail
    else
      l <- get_range input 0 n ;;
      f <- put_range (n_file s) (n_ptr s) l ;;
      Ok (mkNaming f (n_ptr s + n) (n_per_song s) (n_song s))
  end.

(* asapconv.c:239-267: the text to substitute, None for "return NULL" *)
Definition choose_tag (j : job) (s : naming) (c : Z) : outcome (naming * option (list Z)) :=
  if c =? 97 then Ok (s, Some (j_author j))
  else if c =? 110 then Ok (s, Some (j_name j))
  else if c =? 100 then Ok (s, Some (j_date j))
  else if c =? 101 then Ok (s, Some (match j_ext j with Some e => e | None => str "unknown" end))
  else if c =? 115 then
    if n_per_song s then Ok (s, Some (print_int (n_song s + 1)))
    else if negb (j_allow j) then Fail
    else if 0 <=? j_arg_song j then Fail
    else
      let s := mkNaming (n_file s) (n_ptr s) (n_per_song s) (n_song s + 1) in
      if j_songs j <=? n_song s then Ok (s, None)
      else Ok (mkNaming (n_file s) (n_ptr s) true (n_song s), Some (print_int (n_song s + 1)))
  else if c =? 37 then Ok (s, Some [37])
  else Fail.

(* asapconv.c:226-297: pat is what is left of the pattern and i its index; ext is the index of output_ext,
   or -1 for NULL.  The result None is "return NULL". *)
Fixpoint expand_loop (j : job) (input : list Z) (ext : Z) (pat : list Z) (i : Z) (s : naming)
    : outcome (naming * bool) :=
  match pat with
  | [] => Ok (s, true)
  | c :: r =>
    s <- (if i =? ext then insert_input s input else Ok s) ;;
    if c =? 37 then
      match r with
      | [] => Fail
      | k :: r =>
        '(s, t) <- choose_tag j s k ;;
        match t with
        | None => Ok (s, false)
        | Some tag => s <- store_tag s tag ;; expand_loop j input ext r (i + 2) s
        end
      end
    else s <- store s c ;; expand_loop j input ext r (i + 1) s
  end.

(* asapconv.c:200-325 open_output_file: the buffer and current_song, and where the output goes:
   None for NULL, Some true for stdout *)
Definition open_output_file (j : job) (output_file : list Z) (current_song : Z)
    : outcome (list Z * Z * option bool) :=
  match last_index 46 (j_pattern j) with
  | None => UB UbRead
  | Some e =>
    '(input, ext, std) <-
      (if e =? 0 then Ok (j_input j, 0, false)
       else
         c <- get (j_pattern j) (e - 1) ;;
         if (c =? 47) || (c =? 92) then Ok (past_slashes (j_input j) (j_input j), e, false)
         else
           c0 <- get (j_pattern j) 0 ;;
           Ok (j_input j, -1, (e =? 1) && (c0 =? 45))) ;;
    '(s, go) <- expand_loop j input ext (j_pattern j) 0 (mkNaming output_file 0 false current_song) ;;
    if negb go then Ok (n_file s, n_song s, None)
    else
      f <- set_nth (n_file s) (n_ptr s) 0 ;;
      let s := mkNaming f (n_ptr s) (n_per_song s) (n_song s) in
      if negb (n_per_song s) && (0 <=? n_song s) then Ok (n_file s, n_song s, None)
      else
        song <-
          (if n_per_song s then Ok (n_song s)
           else if j_arg_song j <? 0 then Ok (j_default j)
           else if j_songs j <=? j_arg_song j then Fail
           else Ok (j_arg_song j)) ;;
        if std then Ok (n_file s, song, Some true)
        else if j_can_write j (cstr (n_file s)) then Ok (n_file s, song, Some false)
        else Fail
  end.

(* asapconv.c:363, 449 and 542: while ((fp = open_output_file(...)) != NULL), collecting the output names and songs.
   Converting one song is not modelled here; a fatal error in it would end the program. *)
Fixpoint outputs_loop (n : nat) (j : job) (output_file : list Z) (current_song : Z) : outcome (list (list Z * Z)) :=
  match n with
  | O => OutOfFuel
  | S n =>
    '(f, song, fp) <- open_output_file j output_file current_song ;;
    match fp with
    | None => Ok []
    | Some _ =>
      l <- outputs_loop n j f song ;;
      Ok ((cstr f, song) :: l)
    end
  end.

(* asapconv.c:571-575 and the loop of the conversion; the module has been loaded by its file name *)
Definition outputs (j : job) (output_file : list Z) : outcome (list (list Z * Z)) :=
  match last_index 46 (j_pattern j) with
  | None => Fail
  | Some _ => outputs_loop (Z.to_nat (j_songs j) + 2) j output_file (-1)
  end.
