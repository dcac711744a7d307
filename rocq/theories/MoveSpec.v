(* Native modules as files with address cells, and moving them to another address.
   Nothing here refers to the writer. *)
From Verif Require Import Base InfoModel WindowSpec.

(* a cell holds an address: the offsets of its low and its high byte *)
Definition cell := (Z * Z)%type.
Definition address (f : list Z) (c : cell) : Z := at_ f (fst c) + 256 * at_ f (snd c).

(* the cell of offset i among [count] words from [first] *)
Definition words (first count i : Z) : option cell :=
  if (first <=? i) && (i <? first + 2 * count) then let lo := i - (i - first) mod 2 in Some (lo, lo + 1) else None.
(* ... among [count] low bytes at [lo] and as many high bytes at [hi] *)
Definition tables (lo hi count i : Z) : option cell :=
  if (lo <=? i) && (i <? lo + count) then Some (i, i - lo + hi)
  else if (hi <=? i) && (i <? hi + count) then Some (i - hi + lo, i)
  else None.
Definition either (a b : option cell) : option cell := match a with Some c => Some c | None => b end.

(* RMT: the addresses of the pattern tables and of the song are in the header *)
Definition rmt_tables (f : list Z) : Z := 6 + file_word f 16 - file_word f 2.
Definition rmt_patterns (f : list Z) : Z := file_word f 18 - file_word f 16.
Definition rmt_song (f : list Z) : Z := 6 + file_word f 20 - file_word f 2.
Definition rmt_end (f : list Z) : Z := 7 + file_word f 4 - file_word f 2.
Definition rmt_channels (f : list Z) : Z := at_ f 9 - 48.
(* a line of the song starting with 254 holds the address to continue at; a line cut by the end may be too short for it *)
Definition rmt_goto (f : list Z) (i : Z) : option cell :=
  if (rmt_song f <=? i) && (i <? rmt_end f) then
    let column := (i - rmt_song f) mod rmt_channels f in
    let line := i - column in
    if (at_ f line =? 254) && ((column =? 2) || (column =? 3)) && (line + 3 <? rmt_end f) then Some (line + 2, line + 3) else None
  else None.
(* the block with the names has its own addresses *)
Definition rmt_names (f : list Z) (i : Z) : option cell :=
  if rmt_end f + 5 <=? len f then words (rmt_end f) 2 i else None.

Definition cell_of (t : module_type) (f : list Z) (i : Z) : option cell :=
  match t with
  | CMC | CM3 | CMR | CMS => either (words 0 3 i) (tables 26 90 64 i)
  | DLT => words 0 3 i
  | MPT => either (words 0 99 i) (tables 454 458 4 i)
  | RMT => either (words 2 2 i) (either (words 14 ((rmt_tables f - 14) / 2) i)
             (either (tables (rmt_tables f) (rmt_tables f + rmt_patterns f) (rmt_patterns f) i) (either (rmt_goto f i) (rmt_names f i))))
  | TMC => either (words 0 3 i) (either (tables 38 102 64 i) (tables 166 294 128 i))
  | TM2 => either (words 0 3 i) (either (tables 134 774 128 i) (tables 262 518 256 i))
  | _ => None
  end.

Definition native (t : module_type) : Prop := In t [CMC; CM3; CMR; CMS; DLT; MPT; RMT; TMC; TM2].

(* all tables are inside the file *)
Definition complete (t : module_type) (f : list Z) : Prop :=
  match t with
  | CMC | CM3 | CMR | CMS => 154 <= len f
  | DLT => 6 <= len f
  | MPT => 462 <= len f
  | RMT => at_ f 0 = 255 /\ at_ f 1 = 255 /\ (rmt_channels f = 4 \/ rmt_channels f = 8) /\
      22 <= rmt_tables f /\ rmt_tables f mod 2 = 0 /\ 0 <= rmt_patterns f /\ rmt_tables f + 2 * rmt_patterns f <= rmt_song f /\
      rmt_song f < rmt_end f <= len f
  | TMC => 422 <= len f
  | TM2 => 902 <= len f
  | _ => False
  end.

(* 0 and 65535 are not addresses *)
Definition moved (d p : Z) : Z := if (p =? 0) || (p =? 65535) then p else p + d.
(* the file for an address higher by d: all addresses are changed and nothing else *)
Definition new_byte (t : module_type) (d : Z) (f : list Z) (i : Z) : Z :=
  match cell_of t f i with
  | Some c => let p := moved d (address f c) in if i =? fst c then p mod 256 else p / 256 mod 256
  | None => at_ f i
  end.
Definition is_moved (t : module_type) (d : Z) (f g : list Z) : Prop :=
  len g = len f /\ forall i, 0 <= i < len f -> at_ g i = new_byte t d f i.
(* the module is not at the ends of the memory, and no address in it becomes 0 or 65535 or passes them *)
Definition movable (t : module_type) (d : Z) (f : list Z) : Prop :=
  0 < file_word f 2 <= file_word f 4 /\ file_word f 4 < 65535 /\
  forall i c, 0 <= i < len f -> cell_of t f i = Some c -> address f c = 0 \/ address f c = 65535 \/ 0 < address f c + d < 65535.

(* the names of files in the own format of a module *)
Definition own_exts (inf : info) : list (list Z) :=
  match i_type inf with
  | CMC => [if i_fastplay inf =? 156 then [100; 109; 99] else [99; 109; 99]] (* dmc cmc *)
  | CM3 => [[99; 109; 51]]
  | CMR => [[99; 109; 114]]
  | CMS => [[99; 109; 115]]
  | DLT => [[100; 108; 116]]
  | MPT => [if i_fastplay inf =? 156 then [109; 112; 100] else [109; 112; 116]] (* mpd mpt *)
  | RMT => [[114; 109; 116]]
  | TMC => [[116; 109; 99]; [116; 109; 56]] (* tmc tm8 *)
  | TM2 => [[116; 109; 50]]
  | FC => [[102; 99]]
  | _ => []
  end.
