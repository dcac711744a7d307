(* Model of class FlashPack (flashpack.fu; asap.c:6528-6951): compression of an Atari executable. *)
From Verif Require Import Base InfoModel WriterModel.

(* asap.c:89-96 enum FlashPackItemType *)
Inductive fp_type := LITERAL | COPY_TWO | COPY_THREE | COPY_MANY | SET_ADDRESS | END_OF_STREAM.

Definition is_literal (t : fp_type) : bool := match t with LITERAL => true | _ => false end.

(* asap.c:531-534 struct FlashPackItem *)
Definition fp_item := (fp_type * Z)%type.

(* asap.c:538-544 struct FlashPack, without memory; [fp_out] is compressed[0..compressedLength),
   [fp_items] is items[0..itemsCount) *)
Record fp := mkFp { fp_out : list Z; fp_items : list fp_item }.

(* FlashPack.memory: int16_t[65536]; -1 is an address not loaded.  Reads are bounds checked. *)
Definition fp_memory := Z -> Z.

Definition mget (m : fp_memory) (a : Z) : outcome Z :=
  if (0 <=? a) && (a <? 65536) then Ok (m a) else UB UbRead.

(* asap.c:6528-6556 FlashPackItem_WriteValueTo: the bytes stored *)
Definition item_bytes (it : fp_item) : list Z :=
  let '(t, value) := it in
  match t with
  | LITERAL => [u8 value]
  | COPY_TWO => [u8 (Z.shiftl (128 - value) 1)]
  | COPY_THREE => [u8 (Z.shiftl (128 - value) 1 + 1)]
  | COPY_MANY => [1; u8 value]
  | SET_ADDRESS => [0; u8 (value - 128); u8 (Z.shiftr (value - 128) 8)]
  | END_OF_STREAM => [1; 0]
  end.

(* asap.c:6566-6568: extend the hole downwards; true when it is large enough *)
Fixpoint hole_loop (fuel : nat) (m : fp_memory) (start end_ : Z) : outcome (bool * Z) :=
  let start := start - 1 in
  v <- mget m start ;;
  if v <? 0 then
    if 1023 <=? end_ - start then Ok (true, start)
    else match fuel with
         | O => OutOfFuel
         | S fuel => hole_loop fuel m start end_
         end
  else Ok (false, start).

(* asap.c:6562-6564: skip loaded addresses downwards; None when below the minimum *)
Fixpoint skip_loaded (fuel : nat) (m : fp_memory) (end_ : Z) : outcome (option Z) :=
  v <- mget m end_ ;;
  if 0 <=? v then
    if end_ - 1 <? 9216 then Ok None
    else match fuel with
         | O => OutOfFuel
         | S fuel => skip_loaded fuel m (end_ - 1)
         end
  else Ok (Some end_).

(* asap.c:6558-6571 FlashPack_FindHole; -1 when there is none *)
Fixpoint find_hole_loop (fuel inner : nat) (m : fp_memory) (end_ : Z) : outcome Z :=
  match fuel with
  | O => OutOfFuel
  | S fuel =>
    e <- skip_loaded inner m end_ ;;
    match e with
    | None => Ok (-1)
    | Some end_ =>
      '(found, start) <- hole_loop 1024 m end_ end_ ;;
      if found : bool then Ok end_ else find_hole_loop fuel inner m start
    end
  end.

Definition fp_fuel : nat := Z.to_nat 65537.

Definition find_hole (m : fp_memory) : outcome Z := find_hole_loop fp_fuel fp_fuel m 48159.

(* asap.c:6573-6585 FlashPack_GetInnerFlags; [items] is items[index..itemsCount) *)
Fixpoint inner_flags_loop (n : nat) (flags : Z) (items : list fp_item) : Z :=
  match n with
  | O => Z.land flags 255
  | S n =>
    match items with
    | [] => inner_flags_loop n (2 * flags) []
    | (t, _) :: r => inner_flags_loop n (2 * flags + (if is_literal t then 0 else 1)) r
    end
  end.

Definition inner_flags (items : list fp_item) (index : Z) : Z :=
  inner_flags_loop 8 1 (skipn (Z.to_nat index) items).

(* asap.c:6590-6593: one bit for each group of eight items; i = 0, 8, 16, ... below itemsCount <= 64 *)
Fixpoint outer_flags_loop (fuel : nat) (items : list fp_item) (i acc : Z) : Z :=
  match fuel with
  | O => acc
  | S fuel =>
    if i <? len items then
      outer_flags_loop fuel items (i + 8)
        (if negb (inner_flags items i =? 0) then Z.lor acc (Z.shiftr 128 (Z.shiftr i 3)) else acc)
    else acc
  end.

(* asap.c:6595-6602: the items with the inner flags before each group; [rest] is items[i..itemsCount) *)
Fixpoint put_items_loop (items rest : list fp_item) (i : Z) : list Z :=
  match rest with
  | [] => []
  | it :: r =>
    (if (Z.land i 7 =? 0) && negb (inner_flags items i =? 0) then [u8 (inner_flags items i)] else [])
    ++ item_bytes it ++ put_items_loop items r (i + 1)
  end.

(* asap.c:6587-6603 FlashPack_PutItems; the bounds check of compressed[] is done for the whole group *)
Definition put_items (s : fp) : outcome fp :=
  let out := fp_out s ++ [u8 (outer_flags_loop 8 (fp_items s) 0 0)] ++ put_items_loop (fp_items s) (fp_items s) 0 in
  if 65536 <? len out then UB UbWrite else Ok (mkFp out (fp_items s)).

(* asap.c:6605-6614 FlashPack_PutItem *)
Definition put_item (s : fp) (t : fp_type) (value : Z) : outcome fp :=
  s <- (if 64 <=? len (fp_items s) then s <- put_items s ;; Ok (mkFp (fp_out s) []) else Ok s) ;;
  Ok (mkFp (fp_out s) (fp_items s ++ [(t, value)])).

(* asap.c:6616-6619 FlashPack_IsLiteralPreferred *)
Definition is_literal_preferred (s : fp) : bool :=
  (Z.land (len (fp_items s)) 7 =? 7) && (inner_flags (fp_items s) (len (fp_items s) - 7) =? 0).

(* asap.c:6632-6637: length of the match of the data at [address] with the data at [backAddress] *)
Fixpoint match_loop (fuel : nat) (m : fp_memory) (address backAddress endAddress n : Z) : outcome Z :=
  if address + n <=? endAddress then
    data <- mget m (address + n) ;;
    if data <? 0 then Ok n
    else
      back <- mget m (backAddress + n) ;;
      if negb (data =? back) then Ok n
      else match fuel with
           | O => OutOfFuel
           | S fuel => match_loop fuel m address backAddress endAddress (n + 1)
           end
  else Ok n.

(* asap.c:6630-6644: the best match at the 127 preceding addresses *)
Fixpoint best_loop (fuel inner : nat) (m : fp_memory) (startAddress endAddress lastDistance address backAddress : Z)
    (bestMatch bestDistance : Z) : outcome (Z * Z) :=
  if (startAddress <=? backAddress) && (address - backAddress <? 128) then
    match fuel with
    | O => OutOfFuel
    | S fuel =>
      n <- match_loop inner m address backAddress endAddress 0 ;;
      let '(bestMatch, bestDistance) :=
        if bestMatch <? n then (n, address - backAddress)
        else if (bestMatch =? n) && (address - backAddress =? lastDistance) then (bestMatch, lastDistance)
        else (bestMatch, bestDistance) in
      best_loop fuel inner m startAddress endAddress lastDistance address (backAddress - 1) bestMatch bestDistance
    end
  else Ok (bestMatch, bestDistance).

(* asap.c:6696-6697: copies of 255 bytes; returns the remaining length *)
Fixpoint copy_255_loop (fuel : nat) (s : fp) (length : Z) : outcome (fp * Z) :=
  if 255 <? length then
    match fuel with
    | O => OutOfFuel
    | S fuel => s <- put_item s COPY_MANY 255 ;; copy_255_loop fuel s (length - 255)
    end
  else Ok (s, length).

(* asap.c:6681-6713: a match of 7 bytes or more *)
Definition put_long (m : fp_memory) (s : fp) (address bestMatch bestDistance lastDistance : Z) : outcome fp :=
  let length := bestMatch in
  '(s, length) <-
    (if negb (bestDistance =? lastDistance) then
       '(s, length) <-
         (if is_literal_preferred s && (Z.rem length 255 =? 4) then
            v <- mget m address ;; s <- put_item s LITERAL v ;; Ok (s, length - 1)
          else Ok (s, length)) ;;
       s <- put_item s COPY_THREE bestDistance ;; Ok (s, length - 3)
     else if is_literal_preferred s && (Z.rem length 255 =? 1) then
       v <- mget m address ;; s <- put_item s LITERAL v ;; Ok (s, length - 1)
     else Ok (s, length)) ;;
  '(s, length) <- copy_255_loop fp_fuel s length ;;
  if length =? 0 then Ok s
  else if length =? 1 then v <- mget m (address + bestMatch - 1) ;; put_item s LITERAL v
  else if length =? 2 then put_item s COPY_TWO bestDistance
  else if length =? 3 then put_item s COPY_THREE bestDistance
  else put_item s COPY_MANY length.

(* asap.c:6650-6714: the items for a match of at least 2 bytes *)
Definition put_match (m : fp_memory) (s : fp) (address bestMatch bestDistance lastDistance : Z) : outcome fp :=
  let same := bestDistance =? lastDistance in
  if bestMatch =? 2 then put_item s COPY_TWO bestDistance
  else if bestMatch =? 3 then put_item s COPY_THREE bestDistance
  else if bestMatch =? 4 then
    if same then put_item s COPY_MANY 4
    else if is_literal_preferred s then
      v <- mget m address ;; s <- put_item s LITERAL v ;; put_item s COPY_THREE bestDistance
    else
      s <- put_item s COPY_THREE bestDistance ;; v <- mget m (address + 3) ;; put_item s LITERAL v
  else if bestMatch =? 5 then
    if same then put_item s COPY_MANY 5
    else s <- put_item s COPY_THREE bestDistance ;; put_item s COPY_TWO bestDistance
  else if bestMatch =? 6 then
    if same then put_item s COPY_MANY 6
    else s <- put_item s COPY_THREE bestDistance ;; put_item s COPY_THREE bestDistance
  else put_long m s address bestMatch bestDistance lastDistance.

(* asap.c:6627-6717: a run of loaded addresses; returns the state, the address after it and lastDistance *)
Fixpoint run_loop (fuel inner : nat) (m : fp_memory) (s : fp) (startAddress endAddress address lastDistance : Z)
    : outcome (fp * Z * Z) :=
  v <- (if address <=? endAddress then mget m address else Ok (-1)) ;;
  if 0 <=? v then
    match fuel with
    | O => OutOfFuel
    | S fuel =>
      '(bestMatch, bestDistance) <-
        best_loop 128 inner m startAddress endAddress lastDistance address (address - 1) 0 (-1) ;;
      if bestMatch <=? 1 then
        s <- put_item s LITERAL v ;;
        run_loop fuel inner m s startAddress endAddress (address + 1) lastDistance
      else
        s <- put_match m s address bestMatch bestDistance lastDistance ;;
        run_loop fuel inner m s startAddress endAddress (address + bestMatch) bestDistance
    end
  else Ok (s, address, lastDistance).

(* asap.c:6625-6627: skip addresses that are not loaded; None is the return statement *)
Fixpoint skip_free (fuel : nat) (m : fp_memory) (address endAddress : Z) : outcome (option Z) :=
  v <- mget m address ;;
  if v <? 0 then
    if endAddress <? address + 1 then Ok None
    else match fuel with
         | O => OutOfFuel
         | S fuel => skip_free fuel m (address + 1) endAddress
         end
  else Ok (Some address).

(* asap.c:6621-6719 FlashPack_CompressMemoryArea *)
Fixpoint area_loop (fuel inner : nat) (m : fp_memory) (s : fp) (startAddress endAddress address lastDistance : Z)
    : outcome fp :=
  if address <=? endAddress then
    match fuel with
    | O => OutOfFuel
    | S fuel =>
      a <- skip_free inner m address endAddress ;;
      match a with
      | None => Ok s
      | Some address =>
        s <- put_item s SET_ADDRESS address ;;
        '(s, address, lastDistance) <- run_loop inner inner m s startAddress endAddress address lastDistance ;;
        area_loop fuel inner m s startAddress endAddress address lastDistance
      end
    end
  else Ok s.

Definition compress_memory_area (m : fp_memory) (s : fp) (startAddress endAddress : Z) : outcome fp :=
  area_loop fp_fuel fp_fuel m s startAddress endAddress startAddress (-1).

(* asap.c:6721-6725 FlashPack_PutPoke *)
Definition put_poke (s : fp) (address value : Z) : outcome fp :=
  s <- put_item s SET_ADDRESS address ;;
  put_item s LITERAL value.

(* asap.c:6743-6744: copy output[i..i + endAddress - startAddress] to memory[startAddress..endAddress] *)
Definition load_block (m : fp_memory) (output : list Z) (i startAddress endAddress : Z) : outcome fp_memory :=
  block <- get_range output i (i + endAddress - startAddress + 1) ;;
  Ok (fun a => if (startAddress <=? a) && (a <=? endAddress) then at_ block (a - startAddress) else m a).

(* asap.c:6731-6745: the loop over the blocks of the executable *)
Fixpoint load_blocks (fuel : nat) (m : fp_memory) (output : list Z) (i outputOffset : Z) : outcome fp_memory :=
  if i + 5 <=? outputOffset then
    match fuel with
    | O => OutOfFuel
    | S fuel =>
      first <- get_word output i ;;
      '(i, startAddress) <-
        (if first =? 65535 then s <- get_word output (i + 2) ;; Ok (i + 2, s) else Ok (i, first)) ;;
      endAddress <- get_word output (i + 2) ;;
      if endAddress <? startAddress then Fail
      else
        let i := i + 4 in
        if outputOffset <=? i + endAddress - startAddress then Fail
        else
          m <- load_block m output i startAddress endAddress ;;
          load_blocks fuel m output (i + endAddress - startAddress + 1) outputOffset
    end
  else Ok m.

(* asap.c:6763-6772: the compressed stream for a memory image and a hole *)
Definition compress_memory (m : fp_memory) (depackerEndAddress : Z) : outcome (list Z) :=
  s <- put_poke (mkFp [] []) 54286 0 ;;
  s <- put_poke s 53774 0 ;;
  s <- put_poke s 54272 0 ;;
  s <- put_poke s 54017 254 ;;
  s <- put_poke s 580 255 ;;
  s <- compress_memory_area m s depackerEndAddress 65535 ;;
  s <- compress_memory_area m s 0 depackerEndAddress ;;
  s <- put_item s END_OF_STREAM 0 ;;
  s <- put_items s ;;
  Ok (fp_out s).

(* asap.c:6778-6950: the packed executable *)
Definition write_packed (compressed : list Z) (compressedStartAddress depackerStartAddress depackerEndAddress runAddress : Z) : wr :=
  wseqs [
    write_word 65535; write_word 54017; write_word 54017; write_byte 255; write_word compressedStartAddress;
    write_word depackerEndAddress; write_bytes compressed 0 (len compressed); write_byte 173;
    write_word compressedStartAddress; write_byte 238; write_word (depackerStartAddress + 1); write_byte 208;
    write_byte 3; write_byte 238; write_word (depackerStartAddress + 2); write_byte 96; write_byte 76;
    write_word runAddress; write_byte 133; write_byte 254; write_byte 138; write_byte 42; write_byte 170;
    write_byte 240; write_byte 246; write_byte 177; write_byte 254; write_byte 153; write_byte 128;
    write_byte 128; write_byte 200; write_byte 208; write_byte 9; write_byte 152; write_byte 56;
    write_byte 101; write_byte 255; write_byte 133; write_byte 255; write_byte 141;
    write_word (depackerStartAddress + 26); write_byte 202; write_byte 208; write_byte 236; write_byte 6;
    write_byte 253; write_byte 208; write_byte 21; write_byte 6; write_byte 252; write_byte 208; write_byte 7;
    write_byte 56; write_byte 32; write_word depackerStartAddress; write_byte 42; write_byte 133;
    write_byte 252; write_byte 169; write_byte 1; write_byte 144; write_byte 4; write_byte 32;
    write_word depackerStartAddress; write_byte 42; write_byte 133; write_byte 253; write_byte 32;
    write_word depackerStartAddress; write_byte 162; write_byte 1; write_byte 144; write_byte 206;
    write_byte 74; write_byte 208; write_byte 194; write_byte 32; write_word depackerStartAddress;
    write_byte 176; write_byte 193; write_byte 168; write_byte 32; write_word depackerStartAddress;
    write_byte 144; write_byte 202; write_word 736; write_word 737; write_word (depackerStartAddress + 50) ].

(* asap.c:6729-6760: load the blocks; returns the memory without 736 and 737, the run address and the hole *)
Definition fp_prepare (output : list Z) (outputOffset : Z) : outcome (fp_memory * Z * Z) :=
  m <- load_blocks (S (length output)) (fun _ => -1) output 0 outputOffset ;;
  if (m 736 <? 0) || (m 737 <? 0) then Fail
  else if (0 <=? m 252) || (0 <=? m 253) || (0 <=? m 254) || (0 <=? m 255) then Fail
  else
    let runAddress := m 736 + Z.shiftl (m 737) 8 in
    let m := fun a => if (a =? 736) || (a =? 737) then -1 else m a in
    depackerEndAddress <- find_hole m ;;
    if depackerEndAddress =? -1 then Fail else Ok (m, runAddress, depackerEndAddress).

(* asap.c:6727-6951 FlashPack_Compress; "return false" of the packing part keeps the writer's state *)
Definition fp_compress : wr := fun w =>
  match
    '(m, runAddress, depackerEndAddress) <- fp_prepare (w_out w) (w_off w) ;;
    compressed <- compress_memory m depackerEndAddress ;;
    let depackerStartAddress := depackerEndAddress - 87 in
    let compressedStartAddress := depackerStartAddress - len compressed in
    if compressedStartAddress <? 8192 then Fail
    else Ok (compressed, compressedStartAddress, depackerStartAddress, depackerEndAddress, runAddress)
  with
  | Ok (compressed, compressedStartAddress, depackerStartAddress, depackerEndAddress, runAddress) =>
    write_packed compressed compressedStartAddress depackerStartAddress depackerEndAddress runAddress
      (mkW (w_out w) 0 (w_end w))
  | Fail => Ok (false, w)
  | UB r => UB r
  | OutOfFuel => OutOfFuel
  end.
