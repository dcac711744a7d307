(* Running the decompressor of a packed executable on a 6502 *)
From Verif Require Import Base MemModel CpuSpec FlashSpec.

(* the processor gets from one state to another by executing documented instructions *)
Definition opcode_of (r : row) : Z := let '(op, _, _, _, _) := r in op.
Inductive gets : cpu -> cpu -> Prop :=
| gets_here c : gets c c
| gets_on c d r : gets c d -> In r documented -> ld (M d) (PC d) = opcode_of r -> gets c (run r d).

(* ---- the addresses that unpacking reads or writes, each with the number of bytes of the stream left at that time ---- *)
Definition touch := (Z * Z)%type.
Fixpoint copy_touches (unread : Z) (n : nat) (st : unpacker) : list touch :=
  match n with
  | O => []
  | S n =>
    let from := (u_addr st - u_dist st) mod 65536 in
    (from, unread) :: (u_addr st, unread) :: copy_touches unread n (put_byte st (u_mem st from))
  end.
Definition item_touches (flag : bool) (s : list Z) (st : unpacker) : list touch :=
  match s with
  | [] => []
  | v :: r =>
    if flag then
      if 2 <=? v then copy_touches (len r) (Z.to_nat (2 + v mod 2)) (mkUnpacker (u_mem st) (u_addr st) (128 - v / 2))
      else if v =? 1 then match r with n :: r => copy_touches (len r) (Z.to_nat n) st | [] => [] end
      else []
    else [(u_addr st, len r)]
  end.
(* what follows a step *)
Definition after {T} (s : step) (next : list Z -> unpacker -> list T) : list T := match s with Next r st => next r st | _ => [] end.
Fixpoint items_touches (flags : list bool) (s : list Z) (st : unpacker) : list touch :=
  match flags with
  | [] => []
  | f :: flags => item_touches f s st ++ after (unpack_item f s st) (items_touches flags)
  end.
Definition group_touches (f : bool) (s : list Z) (st : unpacker) : list touch :=
  if f then match s with v :: s => items_touches (bits v) s st | [] => [] end else items_touches (repeat false 8) s st.
Fixpoint groups_touches (flags : list bool) (s : list Z) (st : unpacker) : list touch :=
  match flags with
  | [] => []
  | f :: flags =>
    group_touches f s st ++
    after (if f then match s with v :: s => unpack_items (bits v) s st | [] => Bad end else unpack_items (repeat false 8) s st)
      (groups_touches flags)
  end.
Fixpoint touches (n : nat) (s : list Z) (st : unpacker) : list touch :=
  match n with
  | O => []
  | S n =>
    match s with
    | [] => []
    | v :: s => groups_touches (bits v) s st ++ after (unpack_groups (bits v) s st) (touches n)
    end
  end.

(* the stream starts by setting the address *)
Definition sets_address (s : list Z) : Prop :=
  exists v w r, s = v :: w :: 0 :: r /\ Z.testbit v 7 = true /\ Z.testbit w 7 = true.

(* what the decompressor changes for itself: four bytes in page 0, two bytes on the stack and three in its code *)
Definition own (org sp a : Z) : Prop :=
  252 <= a <= 255 \/ a = 256 + sp \/ a = 256 + w8 (sp - 1) \/ a = org + 1 \/ a = org + 2 \/ a = org + 26.
(* an address that may be read or written while the last [unread] bytes of the stream are still needed *)
Definition free (org sp : Z) (t : touch) : Prop :=
  let '(a, unread) := t in ~ own org sp a /\ ~ (org - unread <= a < org + 88).

(* the bytes l are in the memory from a on *)
Definition holds (m : mem) (a : Z) (l : list Z) : Prop := forall i, 0 <= i < len l -> ld m (a + i) = at_ l i.
(* all blocks of an executable are in the memory *)
Definition in_memory (m : mem) (bs : list block) : Prop := forall mark start data, In (mark, start, data) bs -> holds m start data.
