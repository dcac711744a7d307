(* What asapconv should call its output files, from doc/asapconv (the -o option):
   ".EXT" is the input file with another extension, "DIR/.EXT" the same in another directory, "FILE.EXT" as it stands;
   %a %n %d %e %s %% stand for the author, the name, the date, the original extension, the song number and "%". *)
From Coq Require Import String.
From Verif Require Import Base InfoModel ConvModel.

Definition is_slash (c : Z) : bool := (c =? 47) || (c =? 92).
(* characters with a meaning to some file system: < > : / \ | ? * *)
Definition reserved : list Z := [60; 62; 58; 47; 92; 124; 63; 42].
Definition is_reserved (c : Z) : bool := existsb (Z.eqb c) reserved.
Definition neutral (t : list Z) : list Z := map (fun c => if is_reserved c then 95 else c) t.

(* decimal numerals *)
Definition value (t : list Z) : Z := fold_left (fun v c => 10 * v + (c - 48)) t 0.
Definition numeral (t : list Z) (v : Z) : Prop :=
  Forall (fun c => 48 <= c <= 57) t /\ value t = v /\ t <> [] /\ (hd 0 t = 48 -> t = [48]).

(* everything before the last '.', the rest from it on, the part after the last slash *)
Fixpoint drop_until (p : Z -> bool) (l : list Z) : list Z :=
  match l with
  | [] => []
  | c :: r => if p c then l else drop_until p r
  end.
Fixpoint take_until (p : Z -> bool) (l : list Z) : list Z :=
  match l with
  | [] => []
  | c :: r => if p c then [] else c :: take_until p r
  end.
Definition stem (s : list Z) : list Z := rev (tl (drop_until (Z.eqb 46) (rev s))).
Definition dot_ext (s : list Z) : list Z := 46 :: rev (take_until (Z.eqb 46) (rev s)).
Definition base_name (s : list Z) : list Z := rev (take_until is_slash (rev s)).

(* %k for song number [number], None if there is no such placeholder *)
Definition placeholder (j : job) (number : list Z) (k : Z) : option (list Z) :=
  if k =? 97 then Some (j_author j)
  else if k =? 110 then Some (j_name j)
  else if k =? 100 then Some (j_date j)
  else if k =? 101 then Some (match j_ext j with Some e => e | None => str "unknown" end)
  else if k =? 115 then Some number
  else if k =? 37 then Some [37]
  else None.

Fixpoint expand (j : job) (number : list Z) (pattern : list Z) : option (list Z) :=
  match pattern with
  | [] => Some []
  | c :: r =>
    if c =? 37 then
      match r with
      | [] => None
      | k :: r =>
        match placeholder j number k, expand j number r with
        | Some t, Some u => Some (neutral t ++ u)
        | _, _ => None
        end
      end
    else option_map (cons c) (expand j number r)
  end.

(* %s occurs in the pattern *)
Fixpoint numbered (pattern : list Z) : bool :=
  match pattern with
  | [] => false
  | c :: r =>
    if c =? 37 then
      match r with
      | [] => false
      | k :: r => (k =? 115) || numbered r
      end
    else numbered r
  end.

(* what the input file contributes to the name *)
Definition inherited (j : job) : list Z :=
  let head := stem (j_pattern j) in
  if eqb_list head [] then stem (j_input j)
  else if is_slash (last head 0) then stem (base_name (j_input j))
  else [].

Definition file_name (j : job) (number : list Z) : option (list Z) :=
  match expand j number (stem (j_pattern j)), expand j number (dot_ext (j_pattern j)) with
  | Some h, Some e => Some (h ++ inherited j ++ e)
  | _, _ => None
  end.

(* "-.EXT" is the standard output *)
Definition to_stdout (j : job) : bool := eqb_list (stem (j_pattern j)) [45].

(* the songs to convert, None if the options contradict each other *)
Definition requested (j : job) : option (list Z) :=
  if numbered (j_pattern j) then
    if j_allow j && (j_arg_song j <? 0) then Some (map Z.of_nat (seq 0 (Z.to_nat (j_songs j)))) else None
  else if j_arg_song j <? 0 then Some [j_default j]
  else if j_arg_song j <? j_songs j then Some [j_arg_song j]
  else None.

(* the output of one song, if it can be opened with a name buffer of n characters *)
Definition output_of (j : job) (n : Z) (number : list Z) (song : Z) : option (list Z * Z) :=
  match file_name j number with
  | Some name => if (len name <? n) && (to_stdout j || j_can_write j name) then Some (name, song) else None
  | None => None
  end.

Fixpoint all_of {A B} (f : A -> option B) (l : list A) : option (list B) :=
  match l with
  | [] => Some []
  | x :: r =>
    match f x, all_of f r with
    | Some y, Some z => Some (y :: z)
    | _, _ => None
    end
  end.

(* strings hold no NUL; the input is a file asapconv could load; a loaded module has a song and a default song *)
Definition text (l : list Z) : Prop := Forall (fun c => c <> 0) l.
Definition proper (j : job) : Prop :=
  text (j_pattern j) /\ text (j_input j) /\ text (j_author j) /\ text (j_name j) /\ text (j_date j) /\
  match j_ext j with Some e => text e | None => True end /\
  is_our_file (j_input j) = true /\ 1 <= j_songs j <= 32 /\ 0 <= j_default j.
