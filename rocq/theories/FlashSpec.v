(* The FlashPack format, from the decompressor 6502/fp3depk.asx, and Atari executables as lists of blocks.
   Nothing here refers to the compressor. *)
From Verif Require Import Base.

(* memory of the Atari *)
Definition memory := Z -> Z.
Definition store_at (mem : memory) (a v : Z) : memory := fun x => if x =? a then v else mem x.

(* the decompressor: memory, the address to store at and the distance of copies *)
Record unpacker := mkUnpacker { u_mem : memory; u_addr : Z; u_dist : Z }.

Definition put_byte (st : unpacker) (v : Z) : unpacker :=
  mkUnpacker (store_at (u_mem st) (u_addr st) v) ((u_addr st + 1) mod 65536) (u_dist st).

(* copy one byte at a time, so that a copy may overlap itself *)
Fixpoint copy (n : nat) (st : unpacker) : unpacker :=
  match n with
  | O => st
  | S n => copy n (put_byte st (u_mem st ((u_addr st - u_dist st) mod 65536)))
  end.

Inductive step := Next (rest : list Z) (st : unpacker) | Stop (st : unpacker) | Bad.

(* one item, told by its flag to be a byte or a command:
   2..255 copy 2 bytes (even) or 3 (odd) from 128 - v/2 bytes back; 1 n copy n bytes from the same distance, n = 0 ends;
   0 lo hi store at 256 * hi + lo + 128 from now on *)
Definition unpack_item (flag : bool) (s : list Z) (st : unpacker) : step :=
  match s with
  | [] => Bad
  | v :: r =>
    if flag then
      if 2 <=? v then Next r (copy (Z.to_nat (2 + v mod 2)) (mkUnpacker (u_mem st) (u_addr st) (128 - v / 2)))
      else if v =? 1 then
        match r with
        | n :: r => if n =? 0 then Stop st else Next r (copy (Z.to_nat n) st)
        | [] => Bad
        end
      else
        match r with
        | lo :: hi :: r => Next r (mkUnpacker (u_mem st) ((256 * hi + lo + 128) mod 65536) (u_dist st))
        | _ => Bad
        end
    else Next r (put_byte st v)
  end.

(* the bits of a byte, the highest first *)
Definition bits (v : Z) : list bool := map (fun i => Z.testbit v i) [7; 6; 5; 4; 3; 2; 1; 0].

(* eight items: one flag for each *)
Fixpoint unpack_items (flags : list bool) (s : list Z) (st : unpacker) : step :=
  match flags with
  | [] => Next s st
  | f :: flags =>
    match unpack_item f s st with
    | Next s st => unpack_items flags s st
    | r => r
    end
  end.

(* eight groups of eight items: one flag for each telling whether a byte of flags follows or all are plain bytes *)
Fixpoint unpack_groups (flags : list bool) (s : list Z) (st : unpacker) : step :=
  match flags with
  | [] => Next s st
  | f :: flags =>
    match (if f then match s with v :: s => unpack_items (bits v) s st | [] => Bad end
           else unpack_items (repeat false 8) s st) with
    | Next s st => unpack_groups flags s st
    | r => r
    end
  end.

(* the stream *)
Fixpoint unpack (n : nat) (s : list Z) (st : unpacker) : option unpacker :=
  match n with
  | O => None
  | S n =>
    match s with
    | [] => None
    | v :: s =>
      match unpack_groups (bits v) s st with
      | Next s st => unpack n s st
      | Stop st => Some st
      | Bad => None
      end
    end
  end.

(* an image: what is loaded at each address, -1 if nothing *)
Definition image := Z -> Z.
Definition proper_image (m : image) : Prop := forall a, 0 <= a < 65536 -> -1 <= m a < 256.
Definition over (m : image) (mem : memory) : memory := fun a => if (0 <=? a) && (a <? 65536) && (0 <=? m a) then m a else mem a.

(* NMIEN, IRQEN, DMACTL, PORTB and COLDST are set first: no interrupts, no screen, RAM under the ROM, restart on RESET *)
Definition pokes (mem : memory) : memory :=
  store_at (store_at (store_at (store_at (store_at mem 0xd40e 0) 0xd20e 0) 0xd400 0) 0xd301 0xfe) 0x244 0xff.

(* blocks of an executable: FF FF before it or not, first address, data *)
Definition block := (bool * Z * list Z)%type.
Definition word (v : Z) : list Z := [v mod 256; v / 256].
Definition block_bytes (b : block) : list Z :=
  let '(mark, start, data) := b in
  (if mark then [255; 255] else []) ++ word start ++ word (start + len data - 1) ++ data.
Definition proper_block (b : block) : Prop :=
  let '(mark, start, data) := b in
  0 <= start /\ 0 < len data /\ start + len data <= 65536 /\ bytes data /\ (start = 65535 -> mark = true).
(* a later block overwrites an earlier one *)
Fixpoint load (m : image) (bs : list block) : image :=
  match bs with
  | [] => m
  | (_, start, data) :: r => load (fun a => if (start <=? a) && (a <=? start + len data - 1) then at_ data (a - start) else m a) r
  end.
Definition executable (bs : list block) : list Z := flat_map block_bytes bs.

(* the last block holds the address to run at and is not data *)
Definition program (bs : list block) : image := load (fun _ => -1) bs.
Definition data_of (m : image) : image := fun a => if (a =? 736) || (a =? 737) then -1 else m a.
Definition run_of (m : image) : Z := m 736 + 256 * m 737.

(* 6502/fp3depk.asx assembled for the address [org], the stream at [source] and the program at [run] *)
Definition depacker (org source run : Z) : list Z :=
  [173] ++ word source ++                                  (* getByte lda source *)
  [238] ++ word (org + 1) ++ [208; 3; 238] ++ word (org + 2) ++ [96] ++ (* inw getByte+1; rts *)
  [76] ++ word run ++                                      (* exit jmp run *)
  [133; 254; 138; 42] ++                                   (* copyTwoOrThree sta outPtr; txa; rol @ *)
  [170; 240; 246] ++                                       (* copyMany tax; beq exit *)
  [177; 254] ++                                            (* copy lda (outPtr),y *)
  [153; 128; 128; 200; 208; 9; 152; 56; 101; 255] ++       (* putByte sta $8080,y; iny; bne samePage; tya; sec; adc outPtr+1 *)
  [133; 255; 141] ++ word (org + 26) ++                    (* setPage sta outPtr+1; sta putByte+2 *)
  [202; 208; 236] ++                                       (* samePage dex; bne copy *)
  [6; 253; 208; 21; 6; 252; 208; 7] ++                     (* asl innerFlags; bne gotInnerFlags; asl outerFlags; bne gotOuterFlags *)
  [56; 32] ++ word org ++ [42; 133; 252] ++                (* start sec; jsr getByte; rol @; sta outerFlags *)
  [169; 1; 144; 4; 32] ++ word org ++ [42] ++              (* gotOuterFlags lda #1; bcc setInnerFlags; jsr getByte; rol @ *)
  [133; 253] ++                                            (* setInnerFlags sta innerFlags *)
  [32] ++ word org ++ [162; 1; 144; 206] ++                (* gotInnerFlags jsr getByte; ldx #1; bcc putByte *)
  [74; 208; 194; 32] ++ word org ++ [176; 193] ++          (* lsr @; bne copyTwoOrThree; jsr getByte; bcs copyMany *)
  [168; 32] ++ word org ++ [144; 202].                     (* tay; jsr getByte; bcc setPage *)

(* the packed executable: all RAM but the operating system's, the stream with the depacker after it, and its start *)
Definition packed (stream : list Z) (last run : Z) : list block :=
  let org := last - 87 in
  let source := org - len stream in
  [ (true, 0xd301, [255]);
    (false, source, stream ++ depacker org source run);
    (false, 736, word (org + 50)) ].

(* number of bytes of the blocks *)
Definition data_len (bs : list block) : Z := fold_right (fun '(_, _, data) s => len data + s) 0 bs.

(* number of stretches of loaded bytes that begin below n *)
Definition starts_at (m : image) (x : Z) : bool := (0 <=? m x) && ((x =? 0) || (m (x - 1) <? 0)).
Fixpoint stretches (m : image) (n : nat) : Z :=
  match n with O => 0 | S k => stretches m k + (if starts_at m (Z.of_nat k) then 1 else 0) end.
