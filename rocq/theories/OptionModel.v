(* The command line of asapconv *)
From Coq Require Import String.
From Verif Require Import Base InfoModel.

(* isspace in the C locale *)
Definition is_space (c : Z) : bool := (c =? 32) || ((9 <=? c) && (c <=? 13)).
Fixpoint skip_spaces (s : list Z) : list Z :=
  match s with
  | c :: r => if is_space c then skip_spaces r else s
  | [] => []
  end.

(* a character as a digit, -1 if it is none *)
Definition digit_of (base c : Z) : Z :=
  let d := if (48 <=? c) && (c <=? 57) then c - 48
           else if (97 <=? c) && (c <=? 122) then c - 87
           else if (65 <=? c) && (c <=? 90) then c - 55
           else -1 in
  if d <? base then d else -1.

(* the number at the start of s, and what follows it *)
Fixpoint read_digits (base acc : Z) (s : list Z) : Z * list Z :=
  match s with
  | c :: r => if digit_of base c <? 0 then (acc, s) else read_digits base (acc * base + digit_of base c) r
  | [] => (acc, [])
  end.

(* strtol of the C library (C11 7.22.1.4) for the bases 10 and 16; [long_max] is
   LONG_MAX and numbers out of range give LONG_MIN or LONG_MAX.  Returns the number
   and the string at [*endptr], which is [s] if there is no number. *)
Definition strtol (long_max base : Z) (s : list Z) : Z * list Z :=
  let t := skip_spaces s in
  let '(negative, t) :=
    match t with
    | c :: r => if c =? 45 then (true, r) else if c =? 43 then (false, r) else (false, t)
    | [] => (false, t)
    end in
  let t :=
    match t with
    | z :: x :: d :: r =>
      if (base =? 16) && (z =? 48) && ((x =? 120) || (x =? 88)) && (0 <=? digit_of 16 d) then d :: r else t
    | _ => t
    end in
  match t with
  | c :: _ =>
    if digit_of base c <? 0 then (0, s)
    else
      let '(v, e) := read_digits base 0 t in
      (if negative : bool then Z.max (- long_max - 1) (- v) else Z.min long_max v, e)
  | [] => (0, s)
  end.

(* asapconv.c:126-135 parse_int; [Fail] is fatal_error, which exits *)
Definition parse_int (long_max : Z) (s : list Z) (base max_value : Z) : outcome Z :=
  match s with
  | [] => Fail
  | _ =>
    let '(result, e) := strtol long_max base s in
    match e with
    | [] => if (result <? 0) || (max_value <? result) then Fail else Ok result
    | _ => Fail
    end
  end.

(* asapconv.c:48-60, the parsed command line; None is NULL *)
Record options := { o_output : option (list Z); o_song : Z; o_rate : Z; o_word : bool; o_duration : Z; o_mute : Z;
                    o_author : option (list Z); o_name : option (list Z); o_date : option (list Z);
                    o_tag : bool; o_ntsc : Z; o_address : Z }.
Definition initial_options : options :=
  {| o_output := None; o_song := -1; o_rate := 44100; o_word := true; o_duration := -1; o_mute := 0;
     o_author := None; o_name := None; o_date := None; o_tag := false; o_ntsc := -1; o_address := -1 |}.

Definition with_output (v : option (list Z)) (o : options) : options :=
  {| o_output := v; o_song := o_song o; o_rate := o_rate o; o_word := o_word o; o_duration := o_duration o; o_mute := o_mute o;
     o_author := o_author o; o_name := o_name o; o_date := o_date o; o_tag := o_tag o; o_ntsc := o_ntsc o; o_address := o_address o |}.
Definition with_song (v : Z) (o : options) : options :=
  {| o_output := o_output o; o_song := v; o_rate := o_rate o; o_word := o_word o; o_duration := o_duration o; o_mute := o_mute o;
     o_author := o_author o; o_name := o_name o; o_date := o_date o; o_tag := o_tag o; o_ntsc := o_ntsc o; o_address := o_address o |}.
Definition with_rate (v : Z) (o : options) : options :=
  {| o_output := o_output o; o_song := o_song o; o_rate := v; o_word := o_word o; o_duration := o_duration o; o_mute := o_mute o;
     o_author := o_author o; o_name := o_name o; o_date := o_date o; o_tag := o_tag o; o_ntsc := o_ntsc o; o_address := o_address o |}.
Definition with_word (v : bool) (o : options) : options :=
  {| o_output := o_output o; o_song := o_song o; o_rate := o_rate o; o_word := v; o_duration := o_duration o; o_mute := o_mute o;
     o_author := o_author o; o_name := o_name o; o_date := o_date o; o_tag := o_tag o; o_ntsc := o_ntsc o; o_address := o_address o |}.
Definition with_duration (v : Z) (o : options) : options :=
  {| o_output := o_output o; o_song := o_song o; o_rate := o_rate o; o_word := o_word o; o_duration := v; o_mute := o_mute o;
     o_author := o_author o; o_name := o_name o; o_date := o_date o; o_tag := o_tag o; o_ntsc := o_ntsc o; o_address := o_address o |}.
Definition with_mute (v : Z) (o : options) : options :=
  {| o_output := o_output o; o_song := o_song o; o_rate := o_rate o; o_word := o_word o; o_duration := o_duration o; o_mute := v;
     o_author := o_author o; o_name := o_name o; o_date := o_date o; o_tag := o_tag o; o_ntsc := o_ntsc o; o_address := o_address o |}.
Definition with_author (v : option (list Z)) (o : options) : options :=
  {| o_output := o_output o; o_song := o_song o; o_rate := o_rate o; o_word := o_word o; o_duration := o_duration o; o_mute := o_mute o;
     o_author := v; o_name := o_name o; o_date := o_date o; o_tag := o_tag o; o_ntsc := o_ntsc o; o_address := o_address o |}.
Definition with_name (v : option (list Z)) (o : options) : options :=
  {| o_output := o_output o; o_song := o_song o; o_rate := o_rate o; o_word := o_word o; o_duration := o_duration o; o_mute := o_mute o;
     o_author := o_author o; o_name := v; o_date := o_date o; o_tag := o_tag o; o_ntsc := o_ntsc o; o_address := o_address o |}.
Definition with_date (v : option (list Z)) (o : options) : options :=
  {| o_output := o_output o; o_song := o_song o; o_rate := o_rate o; o_word := o_word o; o_duration := o_duration o; o_mute := o_mute o;
     o_author := o_author o; o_name := o_name o; o_date := v; o_tag := o_tag o; o_ntsc := o_ntsc o; o_address := o_address o |}.
Definition with_tag (v : bool) (o : options) : options :=
  {| o_output := o_output o; o_song := o_song o; o_rate := o_rate o; o_word := o_word o; o_duration := o_duration o; o_mute := o_mute o;
     o_author := o_author o; o_name := o_name o; o_date := o_date o; o_tag := v; o_ntsc := o_ntsc o; o_address := o_address o |}.
Definition with_ntsc (v : Z) (o : options) : options :=
  {| o_output := o_output o; o_song := o_song o; o_rate := o_rate o; o_word := o_word o; o_duration := o_duration o; o_mute := o_mute o;
     o_author := o_author o; o_name := o_name o; o_date := o_date o; o_tag := o_tag o; o_ntsc := v; o_address := o_address o |}.
Definition with_address (v : Z) (o : options) : options :=
  {| o_output := o_output o; o_song := o_song o; o_rate := o_rate o; o_word := o_word o; o_duration := o_duration o; o_mute := o_mute o;
     o_author := o_author o; o_name := o_name o; o_date := o_date o; o_tag := o_tag o; o_ntsc := o_ntsc o; o_address := v |}.

(* asapconv.c:137-140 set_song; ASAPInfo_MAX_SONGS is 32 *)
Definition set_song (lm : Z) (s : list Z) (o : options) : outcome options :=
  v <- parse_int lm s 10 (32 - 1) ;; Ok (with_song v o).
(* asapconv.c:142-145 set_sample_rate *)
Definition set_sample_rate (lm : Z) (s : list Z) (o : options) : outcome options :=
  v <- parse_int lm s 10 256000 ;; Ok (with_rate v o).
(* asapconv.c:147-152 set_time; a duration that cannot be parsed is -1 *)
Definition set_time (s : list Z) (o : options) : outcome options :=
  d <- parse_duration s ;; if d <=? 0 then Fail else Ok (with_duration d o).
(* asapconv.c:154-161 set_mute_mask *)
Fixpoint mute_mask (s : list Z) (mask : Z) : Z :=
  match s with
  | c :: r => mute_mask r (if (49 <=? c) && (c <=? 56) then Z.lor mask (Z.shiftl 1 (c - 49)) else mask)
  | [] => mask
  end.
Definition set_mute_mask (s : list Z) (o : options) : outcome options := Ok (with_mute (mute_mask s (o_mute o)) o).
(* asapconv.c:163-168 set_music_address *)
Definition set_music_address (lm : Z) (s : list Z) (o : options) : outcome options :=
  let s := match s with c :: r => if c =? 36 then r else s | [] => s end in
  v <- parse_int lm s 16 65535 ;; Ok (with_address v o).

(* strncmp(arg, prefix, strlen(prefix)) == 0; gives the rest of arg *)
Fixpoint after (prefix arg : list Z) : option (list Z) :=
  match prefix, arg with
  | [], _ => Some arg
  | p :: ps, a :: r => if a =? p then after ps r else None
  | _, _ => None
  end.

(* asapconv.c:601 is_opt: arg[1] == c && arg[2] == '\0', where arg[0] is '-' *)
Definition is_opt (c : Z) (arg : list Z) : bool := eqb_list arg [45; c].

(* what main does with an argument *)
Inductive reading :=
| Value (f : option (list Z) -> options -> outcome options)   (* the option takes the next argument, NULL after the last *)
| Done (m : options -> outcome options)                       (* an option *)
| Info.                                                       (* --help and --version *)

(* a null pointer is dereferenced by the setters other than the plain assignments *)
Definition deref (f : list Z -> options -> outcome options) (v : option (list Z)) (o : options) : outcome options :=
  match v with Some s => f s o | None => UB UbRead end.
Definition assign (f : option (list Z) -> options -> options) (v : option (list Z)) (o : options) : outcome options := Ok (f v o).

Local Open Scope string_scope.
(* asapconv.c:602-656, the chain of conditions for an argument that starts with '-' *)
Definition read_option (lm : Z) (arg : list Z) : outcome reading :=
  if is_opt 111 arg then Ok (Value (assign with_output))
  else match after (str "--output=") arg with Some v => Ok (Done (fun o => Ok (with_output (Some v) o))) | None =>
  if is_opt 115 arg then Ok (Value (deref (set_song lm)))
  else match after (str "--song=") arg with Some v => Ok (Done (set_song lm v)) | None =>
  if is_opt 116 arg then Ok (Value (deref set_time))
  else match after (str "--time=") arg with Some v => Ok (Done (set_time v)) | None =>
  if is_opt 98 arg || eqb_list arg (str "--byte-samples") then Ok (Done (fun o => Ok (with_word false o)))
  else if is_opt 119 arg || eqb_list arg (str "--word-samples") then Ok (Done (fun o => Ok (with_word true o)))
  else if is_opt 82 arg then Ok (Value (deref (set_sample_rate lm)))
  else match after (str "--sample-rate") arg with Some v => Ok (Done (set_sample_rate lm v)) | None =>
  if is_opt 109 arg then Ok (Value (deref set_mute_mask))
  else match after (str "--mute=") arg with Some v => Ok (Done (set_mute_mask v)) | None =>
  if is_opt 97 arg then Ok (Value (assign with_author))
  else match after (str "--author=") arg with Some v => Ok (Done (fun o => Ok (with_author (Some v) o))) | None =>
  if is_opt 110 arg then Ok (Value (assign with_name))
  else match after (str "--name=") arg with Some v => Ok (Done (fun o => Ok (with_name (Some v) o))) | None =>
  if is_opt 100 arg then Ok (Value (assign with_date))
  else match after (str "--date=") arg with Some v => Ok (Done (fun o => Ok (with_date (Some v) o))) | None =>
  if eqb_list arg (str "--tag") then Ok (Done (fun o => Ok (with_tag true o)))
  else if eqb_list arg (str "--ntsc") then Ok (Done (fun o => Ok (with_ntsc 1 o)))
  else if eqb_list arg (str "--pal") then Ok (Done (fun o => Ok (with_ntsc 0 o)))
  else match after (str "--address=") arg with Some v => Ok (Done (set_music_address lm v)) | None =>
  if is_opt 104 arg || eqb_list arg (str "--help") then Ok Info
  else if is_opt 118 arg || eqb_list arg (str "--version") then Ok Info
  else Fail
  end end end end end end end end end.

Local Close Scope string_scope.
(* asapconv.c:590-664 main, from argv[i] on: the files that are given to process_file,
   each with the options at that moment, and the exit code.  [error] tells whether
   options_error is not NULL.  process_file (asapconv.c:560-588) is taken to return; it
   does so only after apply_tags, which resets arg_name (asapconv.c:179). *)
Fixpoint main_loop (lm : Z) (args : list (list Z)) (o : options) (error : bool) : outcome (list (list Z * options) * Z) :=
  match args with
  | [] => Ok ([], if error then 1 else 0)
  | arg :: rest =>
    if negb (match arg with c :: _ => c =? 45 | [] => false end) then
      '(files, code) <- main_loop lm rest (with_name None o) false ;; Ok ((arg, o) :: files, code)
    else
      r <- read_option lm arg ;;
      match r with
      | Info => main_loop lm rest o false
      | Done m => o' <- m o ;; main_loop lm rest o' true
      | Value f =>
        match rest with
        | v :: rest' => o' <- f (Some v) o ;; main_loop lm rest' o' true
        | [] => o' <- f None o ;; Ok ([], 1)
        end
      end
  end.
Definition asapconv_main (lm : Z) (args : list (list Z)) : outcome (list (list Z * options) * Z) := main_loop lm args initial_options true.
