(* What an ATR disk image contains. *)
From Verif Require Import Base AatrModel.

(* ---- sectors ---- *)
(* the first three sectors have 128 bytes *)
Definition sector_size (bps s : Z) : Z := if s <=? 3 then 128 else bps.
(* sector s + 1 starts where sector s ends; images with padding have 3 * 128 unused bytes after sector 3 *)
Fixpoint sector_end (bps : Z) (padded : bool) (s : nat) : Z :=
  match s with
  | O => 16
  | S s' => sector_end bps padded s' + sector_size bps (Z.of_nat s) + (if (Z.of_nat s =? 3) && padded then 384 else 0)
  end.
Definition sector_start (bps : Z) (padded : bool) (s : Z) : Z := sector_end bps padded (Z.to_nat (s - 1)).

(* the 16-byte header: magic 0x0296, image size in 16-byte units, sector size *)
Definition header_magic (img : list Z) : bool := (at_ img 0 =? 0x96) && (at_ img 1 =? 2).
Definition header_sector_size (img : list Z) : Z := at_ img 4 + 256 * at_ img 5.
(* an even number of 128-byte units and the double sector size *)
Definition header_padded (img : list Z) : bool := (header_sector_size img =? 256) && (at_ img 2 mod 16 =? 0).

(* ---- directories ---- *)
Record entry := mkEntry { e_name : list Z; e_type : Z; e_first : Z }.

(* a blank-padded name *)
Fixpoint word (l : list Z) : list Z := match l with [] => [] | c :: r => if c =? 32 then [] else c :: word r end.
(* A-Z, 0-9 and underscore *)
Definition filename_chars : list Z := map Z.of_nat (seq 65 26 ++ seq 48 10 ++ [95%nat]).
Definition filename_char (c : Z) : bool := existsb (Z.eqb c) filename_chars.
Definition name_field (l : list Z) : option (list Z) :=
  let w := word l in
  if forallb filename_char w && forallb (fun c => c =? 32) (skipn (length w) l) then Some w else None.
Definition entry_name (r : list Z) : option (list Z) :=
  match name_field (slice r 5 13), name_field (slice r 13 16) with
  | Some [], Some [] => None
  | Some w, Some [] => Some w
  | Some w, Some e => Some (w ++ 46 :: e)
  | _, _ => None
  end.

(* the kinds of files: DOS 1 (single density only), DOS 2, DOS 2.5, MyDOS, MyDOS directory; the read-only bit and bit 3 do not matter *)
Definition file_kinds (bps : Z) : list Z := (if bps =? 128 then [0x40] else []) ++ [0x42; 0x03; 0x46; 0x10].
Definition is_kind (bps t : Z) : bool := existsb (fun k => t =? k) (file_kinds bps).

(* record k of the directory that starts at sector f: 8 records of 16 bytes in a sector, whatever its size *)
Definition directory_record (disk : aatr) (f k : Z) : option (list Z) :=
  match read_sector disk (f + k / 8) 128 with
  | None => None
  | Some sector => Some (slice sector (16 * (k mod 8)) (16 * (k mod 8) + 16))
  end.

(* the entries among n records from record k on: a zero status ends the directory *)
Fixpoint entries_from (disk : aatr) (f : Z) (n : nat) (k : Z) : list entry :=
  match n with
  | O => []
  | S n =>
    match directory_record disk f k with
    | None => []
    | Some r =>
      let t := Z.land (at_ r 0) 0xd7 in
      if t =? 0 then []
      else
        match (if is_kind (at_bps disk) t then entry_name r else None) with
        | None => entries_from disk f n (k + 1)
        | Some name => mkEntry name t (at_ r 3 + 256 * at_ r 4) :: entries_from disk f n (k + 1)
        end
    end
  end.
Definition entries (disk : aatr) (f : Z) : list entry := entries_from disk f 64 0.
Definition is_directory (e : entry) : bool := e_type e =? 0x10.
(* the entry an iterator is at, as far as it can be asked and opened *)
Definition points (d : directory) (e : entry) : Prop := entry_type d = Ok (e_type e) /\ entry_first_sector d = Ok (e_first e).

(* the files in these entries and in [levels] levels of subdirectories, with their paths *)
Fixpoint listing (disk : aatr) (levels : nat) (prefix : list Z) (es : list entry) : list (list Z * entry) :=
  flat_map (fun e =>
    if is_directory e then
      match levels with
      | O => []
      | S levels => listing disk levels (prefix ++ e_name e ++ [47]) (entries disk (e_first e))
      end
    else [(prefix ++ e_name e, e)]) es.

Definition root : Z := 361.
(* all files down to the 20th level *)
Definition all_files (disk : aatr) : list (list Z * entry) := listing disk 19 [] (entries disk root).

(* calling NextFile until it returns null gives these paths, with GetDirectory at these entries *)
Inductive lists (disk : aatr) : lister -> list (list Z * entry) -> Prop :=
| lists_end l l' : next_file disk l = Ok (None, l') -> lists disk l []
| lists_file l l' d path e rest :
    next_file disk l = Ok (Some path, l') -> lister_directory l' = Ok d -> points d e -> lists disk l' rest -> lists disk l ((path, e) :: rest).

(* the entry a path leads to, through the first entry of each name *)
Definition named (name : list Z) (es : list entry) : option entry := find (fun e => eqb_list (e_name e) name) es.
Fixpoint resolve (disk : aatr) (part rest : list Z) (es : list entry) : option entry :=
  match rest with
  | [] => named part es
  | c :: rest =>
    if c =? 47 then
      match named part es with
      | Some e => if is_directory e then resolve disk [] rest (entries disk (e_first e)) else None
      | None => None
      end
    else resolve disk (part ++ [c]) rest es
  end.

(* ---- files ---- *)
(* the number of data bytes of a sector: its last byte, or for DOS 1 either 125 or the last byte less 128 *)
Definition used (bps t last : Z) : option Z :=
  if t =? 0 then Some (if last <? 128 then 125 else last - 128)
  else if last <=? bps then Some last else None.
(* the next sector: 10 bits, or 16 bits for MyDOS *)
Definition link (bps t : Z) (sector : list Z) : Z :=
  at_ sector (bps - 2) + 256 * (if t =? 6 then at_ sector (bps - 3) else at_ sector (bps - 3) mod 4).

(* how the sectors of a file end: with one that cannot be read, with one of an impossible length, or not looked at *)
Inductive ending := Complete | Corrupt | Unknown.
(* the file of type t whose next sector is s has these data, and then ends that way *)
Inductive chain (disk : aatr) (t : Z) : ending -> Z -> list Z -> Prop :=
| chain_end s : read_sector disk s (at_bps disk) = None -> chain disk t Complete s []
| chain_bad s sector : read_sector disk s (at_bps disk) = Some sector -> used (at_bps disk) t (at_ sector (at_bps disk - 1)) = None -> chain disk t Corrupt s []
| chain_cut s : chain disk t Unknown s []
| chain_sector e s sector n rest :
    read_sector disk s (at_bps disk) = Some sector -> used (at_bps disk) t (at_ sector (at_bps disk - 1)) = Some n ->
    chain disk t e (link (at_bps disk) t sector) rest -> chain disk t e s (slice sector 0 n ++ rest).

(* a call returns r, given enough time *)
Definition returns {A} (call : nat -> outcome A) (r : A) : Prop := exists enough, forall fuel, (enough <= fuel)%nat -> call fuel = Ok r.
Definition gets_stuck {A} (call : nat -> outcome A) : Prop := forall fuel, call fuel = OutOfFuel.

(* what can be done with an open file, and the answers for a file with these data *)
Inductive operation := Read (n : Z) | SetPosition (p : Z) | GetPosition | GetLength.
Inductive answer := Bytes (l : list Z) | Flag (b : bool) | Number (n : Z).
Fixpoint answers (data : list Z) (pos : Z) (ops : list operation) : list answer :=
  match ops with
  | [] => []
  | Read n :: ops =>
    let l := slice data pos (Z.min (pos + n) (len data)) in Bytes l :: answers data (pos + len l) ops
  | SetPosition p :: ops => Flag ((0 <=? p) && (p <=? len data)) :: answers data (Z.max 0 (Z.min p (len data))) ops
  | GetPosition :: ops => Number pos :: answers data pos ops
  | GetLength :: ops => Number (len data) :: answers data pos ops
  end.
(* lengths are not negative; going to a position does not overflow *)
Definition reasonable (op : operation) : Prop :=
  match op with Read n => 0 <= n <= int_max | SetPosition p => int_min + 0x1000000 <= p <= int_max | _ => True end.

(* the answers of the calls; each Read has a buffer of its length *)
Inductive performs (disk : aatr) : stream -> list operation -> list answer -> Prop :=
| performs_nothing s : performs disk s [] []
| performs_read s n got buffer s' ops rest :
    returns (fun fuel => stream_read fuel disk (Some (repeat 0 (Z.to_nat n))) 0 n s) (got, Some buffer, s') -> 0 <= got <= n ->
    performs disk s' ops rest -> performs disk s (Read n :: ops) (Bytes (slice buffer 0 got) :: rest)
| performs_seek s p b s' ops rest :
    returns (fun fuel => set_position fuel disk p s) (b, s') -> performs disk s' ops rest -> performs disk s (SetPosition p :: ops) (Flag b :: rest)
| performs_tell s ops rest : performs disk s ops rest -> performs disk s (GetPosition :: ops) (Number (st_position s) :: rest)
| performs_length s n s' ops rest :
    returns (fun fuel => get_length fuel disk s) (n, s') -> performs disk s' ops rest -> performs disk s (GetLength :: ops) (Number n :: rest).

(* finding a file, opening it and reading n bytes *)
Definition read_file (fuel : nat) (disk : aatr) (path : list Z) (n : Z) (d : directory) (s : stream) : outcome (Z * option (list Z) * stream) :=
  '(ok, d) <- find_entry_recursively disk path (open_root d) ;;
  if ok then s <- stream_open d s ;; stream_read fuel disk (Some (repeat 0 (Z.to_nat n))) 0 n s else Fail.
(* a directory object as New makes it, whatever its buffer contains *)
Definition directory_ok (d : directory) : Prop := len (dir_sector d) = 128 /\ bytes (dir_sector d).

(* what a stream may have in its buffer before Open, if it is to be any good *)
Definition fresh_enough (disk : aatr) (s : stream) : Prop :=
  len (st_sector s) = 256 /\ bytes (st_sector s) /\ (at_bps disk = 128 -> at_ (st_sector s) 127 <= 128).
(* bytes of the image, and sector buffers as large as declared *)
Definition image_ok (disk : aatr) : Prop := bytes (at_image disk) /\ (at_bps disk = 128 \/ at_bps disk = 256).
