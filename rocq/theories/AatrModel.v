(* Model of aatr.fu: the reader of ATR disk images.  Strings are lists of characters. *)
From Verif Require Import Base Loop.

Record aatr := mkAatr {
  at_image : list Z;       (* the contents of the file *)
  at_bps : Z;              (* BytesPerSector *)
  at_sector4 : Z           (* Sector4Offset *)
}.

(* aatr-stdio.c:33-38 AATRStdio_Read: fseek fails for a negative offset, fread unless everything asked for is there.
   After a failure the buffer keeps its contents here; in C a prefix may have been overwritten. *)
Definition read_image (img : list Z) (offset length : Z) : option (list Z) :=
  if (offset <? 0) || (len img <? offset + length) then None else Some (slice img offset (offset + length)).

(* aatr.fu:37-67 AATR.Open; None is false *)
Definition aatr_open (img : list Z) : outcome (option aatr) :=
  match read_image img 0 6 with
  | None => Ok None
  | Some header =>
    h0 <- get header 0 ;;
    h1 <- get header 1 ;;
    if negb (h0 =? 0x96) || negb (h1 =? 2) then Ok None
    else
      h4 <- get header 4 ;;
      h5 <- get header 5 ;;
      h2 <- get header 2 ;;
      let bps := Z.lor h4 (Z.shiftl h5 8) in
      if bps =? 0x80 then Ok (Some (mkAatr img bps 0x190))
      else if bps =? 0x100 then Ok (Some (mkAatr img bps (if Z.land h2 0xf =? 0 then 0x310 else 0x190)))
      else Ok None
  end.

(* aatr.fu:72-83 AATR.ReadSector: the bytes read; None is false *)
Definition sector_offset (disk : aatr) (sectorNo length : Z) : option Z :=
  if sectorNo <? 4 then
    if (sectorNo <? 1) || (128 <? length) then None else Some (Z.shiftl sectorNo 7 - 0x70)
  else Some (at_sector4 disk + (sectorNo - 4) * at_bps disk).
Definition read_sector (disk : aatr) (sectorNo length : Z) : option (list Z) :=
  match sector_offset disk sectorNo length with
  | None => None
  | Some offset => read_image (at_image disk) offset length
  end.

(* aatr.fu:87-93 AATRDirectory, without the reference to the disk and the Filename, which NextEntry returns *)
Record directory := mkDirectory {
  dir_first : Z;           (* FirstSector *)
  dir_fileNo : Z;          (* FileNo *)
  dir_sector : list Z      (* Sector[128] *)
}.

(* aatr.fu:100-107 AATRDirectory.OpenRoot *)
Definition open_root (d : directory) : directory := mkDirectory 361 (-1) (dir_sector d).

(* aatr.fu:109-130 AATRDirectory.GetFilenamePart; n is maxLength - length *)
Fixpoint rest_blank (n : nat) (sector : list Z) (i : Z) : outcome bool :=
  match n with
  | O => Ok true
  | S n => c <- get sector i ;; if c =? 32 then rest_blank n sector (i + 1) else Ok false
  end.
Definition name_char (c : Z) : bool := ((65 <=? c) && (c <=? 90)) || ((48 <=? c) && (c <=? 57)) || (c =? 95).
Fixpoint filename_part (n : nat) (sector : list Z) (sectorOffset length : Z) : outcome Z :=
  match n with
  | O => Ok length
  | S n =>
    c <- get sector (sectorOffset + length) ;;
    if c =? 32 then
      b <- rest_blank n sector (sectorOffset + length + 1) ;;
      Ok (if b then length else -1)
    else if name_char c then filename_part n sector sectorOffset (length + 1)
    else Ok (-1)
  end.

(* aatr.fu:142-157, the switch of NextEntry *)
Inductive entry_kind := EndOfDirectory | Skipped | Entry.
Definition entry_kind_of (bps status : Z) : entry_kind :=
  match Z.land status 0xd7 with
  | 0x00 => EndOfDirectory
  | 0x40 => if bps =? 128 then Entry else Skipped
  | 0x42 | 0x03 | 0x46 | 0x10 => Entry
  | _ => Skipped
  end.

(* aatr.fu:131-171 AATRDirectory.NextEntry *)
Definition next_entry_step (disk : aatr) (d : directory) : outcome (directory + (option (list Z) * directory)) :=
  if 63 <=? dir_fileNo d then leave (None, d)
  else
    let fileNo := dir_fileNo d + 1 in
    let d := mkDirectory (dir_first d) fileNo (dir_sector d) in
    let sectorOffset := Z.shiftl (Z.land fileNo 7) 4 in
    let loaded := if sectorOffset =? 0 then read_sector disk (dir_first d + Z.shiftr fileNo 3) 128 else Some (dir_sector d) in
    match loaded with
    | None => leave (None, d)
    | Some sector =>
      let d := mkDirectory (dir_first d) fileNo sector in
      status <- get sector sectorOffset ;;
      match entry_kind_of (at_bps disk) status with
      | EndOfDirectory => leave (None, d)
      | Skipped => continue_ d
      | Entry =>
        filenameLength <- filename_part 8 sector (sectorOffset + 5) 0 ;;
        if filenameLength <? 0 then continue_ d
        else
          extLength <- filename_part 3 sector (sectorOffset + 13) 0 ;;
          if (extLength <? 0) || ((filenameLength =? 0) && (extLength =? 0)) then continue_ d
          else
            filename <- get_range sector (sectorOffset + 5) (sectorOffset + 5 + filenameLength) ;;
            if 0 <? extLength then
              sector <- set_nth sector (sectorOffset + 12) 46 ;;
              ext <- get_range sector (sectorOffset + 12) (sectorOffset + 12 + 1 + extLength) ;;
              leave (Some (filename ++ ext), mkDirectory (dir_first d) fileNo sector)
            else leave (Some filename, d)
      end
    end.
Definition next_entry (disk : aatr) (d : directory) : outcome (option (list Z) * directory) :=
  loopZ 66 (next_entry_step disk) d.

(* aatr.fu:173-177 AATRDirectory.GetEntryType, 180 IsEntryDirectory, 182-186 GetEntryFirstSector *)
Definition entry_type (d : directory) : outcome Z :=
  status <- get (dir_sector d) (Z.shiftl (Z.land (dir_fileNo d) 7) 4) ;;
  Ok (Z.land status 0xd7).
Definition is_entry_directory (d : directory) : outcome bool := t <- entry_type d ;; Ok (t =? 0x10).
Definition entry_first_sector (d : directory) : outcome Z :=
  let sectorOffset := Z.shiftl (Z.land (dir_fileNo d) 7) 4 in
  lo <- get (dir_sector d) (sectorOffset + 3) ;;
  hi <- get (dir_sector d) (sectorOffset + 4) ;;
  Ok (Z.lor lo (Z.shiftl hi 8)).

(* aatr.fu:188-196 AATRDirectory.Open: d is opened at the subdirectory that [parent] points at *)
Definition open_directory (d parent : directory) : outcome directory :=
  first <- entry_first_sector parent ;;
  Ok (mkDirectory first (-1) (dir_sector d)).

(* aatr.fu:198-211 AATRDirectory.FindEntry *)
Definition find_entry_step (disk : aatr) (filename : list Z) (d : directory) : outcome (directory + (bool * directory)) :=
  '(name, d) <- next_entry disk d ;;
  match name with
  | None => leave (false, d)
  | Some current => if eqb_list current filename then leave (true, d) else continue_ d
  end.
Definition find_entry (disk : aatr) (filename : list Z) (d : directory) : outcome (bool * directory) :=
  loopZ 66 (find_entry_step disk filename) d.

(* aatr.fu:213-236 AATRDirectory.FindEntryRecursively; part is path[i..j), rest is path[j..) *)
Fixpoint find_recursively (disk : aatr) (part rest : list Z) (d : directory) : outcome (bool * directory) :=
  match rest with
  | [] => if 12 <? len part then Ok (false, d) else find_entry disk part d
  | c :: rest =>
    if c =? 47 then
      if 12 <? len part then Ok (false, d)
      else
        '(found, d) <- find_entry disk part d ;;
        if negb found then Ok (false, d)
        else
          b <- is_entry_directory d ;;
          if negb b then Ok (false, d)
          else
            d <- open_directory d d ;;
            find_recursively disk [] rest d
    else find_recursively disk (part ++ [c]) rest d
  end.
Definition find_entry_recursively (disk : aatr) (path : list Z) (d : directory) : outcome (bool * directory) :=
  find_recursively disk [] path d.

(* aatr.fu:240-247 AATRRecursiveLister, without FilePath, which NextFile returns *)
Definition max_depth : Z := 20.
Record lister := mkLister {
  li_directories : list directory;   (* Directories[MaxDepth] *)
  li_depth : Z;
  li_path : list Z                   (* DirectoryPath *)
}.

Definition get_dir (l : list directory) (i : Z) : outcome directory :=
  if i <? 0 then UB UbRead else match nth_error l (Z.to_nat i) with Some d => Ok d | None => UB UbRead end.

(* aatr.fu:252-260 AATRRecursiveLister.Open *)
Definition lister_open (l : lister) : outcome lister :=
  d <- get_dir (li_directories l) 0 ;;
  dirs <- set_nth (li_directories l) 0 (open_root d) ;;
  Ok (mkLister dirs 0 []).

(* aatr.fu:272-275: the index of the last slash before the one that ends the path, or a negative number *)
Fixpoint back_to_slash (n : nat) (path : list Z) (i : Z) : outcome Z :=
  let i := i - 1 in
  if i <? 0 then Ok i
  else
    c <- get path i ;;
    if c =? 47 then Ok i else match n with O => OutOfFuel | S n => back_to_slash n path i end.
Definition parent_path (path : list Z) : outcome (list Z) :=
  i <- back_to_slash (length path) path (len path - 1) ;;
  get_range path 0 (i + 1).

(* aatr.fu:262-292 AATRRecursiveLister.NextFile *)
Definition next_file_step (disk : aatr) (l : lister) : outcome (lister + (option (list Z) * lister)) :=
  d <- get_dir (li_directories l) (li_depth l) ;;
  '(filename, d) <- next_entry disk d ;;
  dirs <- set_nth (li_directories l) (li_depth l) d ;;
  let l := mkLister dirs (li_depth l) (li_path l) in
  match filename with
  | None =>
    if li_depth l =? 0 then leave (None, l)
    else
      path <- parent_path (li_path l) ;;
      continue_ (mkLister dirs (li_depth l - 1) path)
  | Some filename =>
    b <- is_entry_directory d ;;
    if b then
      if max_depth - 1 <=? li_depth l then continue_ l
      else
        let depth := li_depth l + 1 in
        child <- get_dir dirs depth ;;
        child <- open_directory child d ;;
        dirs <- set_nth dirs depth child ;;
        continue_ (mkLister dirs depth (li_path l ++ filename ++ [47]))
    else leave (Some (li_path l ++ filename), l)
  end.
(* 66 entries at each of 20 levels *)
Definition next_file (disk : aatr) (l : lister) : outcome (option (list Z) * lister) :=
  loopZ (66 ^ 20 + 1) (next_file_step disk) l.

(* aatr.fu:295 AATRRecursiveLister.GetDirectory *)
Definition lister_directory (l : lister) : outcome directory := get_dir (li_directories l) (li_depth l).

(* aatr.fu:299-307 AATRFileStream, without the reference to the disk *)
Record stream := mkStream {
  st_first : Z;            (* FirstSector *)
  st_type : Z;             (* FileType *)
  st_position : Z;         (* Position *)
  st_next : Z;             (* NextSector *)
  st_sector : list Z;      (* Sector[256] *)
  st_offset : Z            (* SectorOffset *)
}.

(* aatr.fu:313-318 AATRFileStream.Rewind *)
Definition rewind_stream (s : stream) : stream := mkStream (st_first s) (st_type s) 0 (st_first s) (st_sector s) 255.

(* aatr.fu:320-329 AATRFileStream.Open *)
Definition stream_open (d : directory) (s : stream) : outcome stream :=
  first <- entry_first_sector d ;;
  t <- entry_type d ;;
  Ok (rewind_stream (mkStream first (Z.land t 6) (st_position s) (st_next s) (st_sector s) (st_offset s))).

(* a[i..i + len l) = l *)
Definition copy_into (a : list Z) (i : Z) (l : list Z) : outcome (list Z) :=
  if (i <? 0) || (len a <? i + len l) then UB UbWrite
  else Ok (firstn (Z.to_nat i) a ++ l ++ skipn (Z.to_nat (i + len l)) a).

(* aatr.fu:331-376 AATRFileStream.Read: the number of bytes read, the destination buffer and the stream.
   The loop state is (length, totalRead, buffer, stream). *)
Definition read_state : Type := (Z * Z * option (list Z) * stream)%type.
Definition read_step (disk : aatr) (offset : Z) (r : read_state) : outcome (read_state + (Z * option (list Z) * stream)) :=
  let '(length, totalRead, buffer, s) := r in
  let bps := at_bps disk in
  if length <=? 0 then leave (totalRead, buffer, s)
  else
    got <- get (st_sector s) (bps - 1) ;;
    if negb (st_type s =? 0) && (bps <? got) then leave (-1, buffer, s)
    else
      let got := if st_type s =? 0 then if got <? 128 then 125 else got - 128 else got in
      let got := got - st_offset s in
      if got <=? 0 then
        match read_sector disk (st_next s) bps with
        | None => leave (totalRead, buffer, s)
        | Some data =>
          sector <- copy_into (st_sector s) 0 data ;;
          hi <- get sector (bps - 3) ;;
          let hi := if st_type s =? 6 then hi else Z.land hi 3 in
          lo <- get sector (bps - 2) ;;
          continue_ (length, totalRead, buffer, mkStream (st_first s) (st_type s) (st_position s) (Z.lor (Z.shiftl hi 8) lo) sector 0)
        end
      else
        let got := if length <? got then length else got in
        data <- get_range (st_sector s) (st_offset s) (st_offset s + got) ;;
        buffer <- match buffer with
                  | None => Ok None
                  | Some b => at' <- chk (offset + totalRead) ;; b <- copy_into b at' data ;; Ok (Some b)
                  end ;;
        position <- chk (st_position s + got) ;;
        total <- chk (totalRead + got) ;;
        continue_ (length - got, total, buffer,
          mkStream (st_first s) (st_type s) position (st_next s) (st_sector s) (st_offset s + got)).
Definition stream_read (fuel : nat) (disk : aatr) (buffer : option (list Z)) (offset length : Z) (s : stream)
  : outcome (Z * option (list Z) * stream) :=
  loop fuel (read_step disk offset) (length, 0, buffer, s).

(* aatr.fu:384-395 AATRFileStream.SetPosition *)
Definition set_position (fuel : nat) (disk : aatr) (position : Z) (s : stream) : outcome (bool * stream) :=
  toSkip <- chk (position - st_position s) ;;
  if 0 <=? toSkip then
    '(n, _, s) <- stream_read fuel disk None 0 toSkip s ;; Ok (n =? toSkip, s)
  else
    '(n, _, s) <- stream_read fuel disk None 0 position (rewind_stream s) ;; Ok (n =? position, s).

(* aatr.fu:397-404 AATRFileStream.GetLength *)
Definition get_length (fuel : nat) (disk : aatr) (s : stream) : outcome (Z * stream) :=
  let position := st_position s in
  '(n, _, s) <- stream_read fuel disk None 0 (0x7fffffff - position) s ;;
  length <- chk (position + n) ;;
  '(_, s) <- set_position fuel disk position s ;;
  Ok (length, s).
