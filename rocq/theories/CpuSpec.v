(* An independent specification of the documented 6502 instruction set (MOS programming manual; decimal
   mode of the NMOS chip after B. Clark, "Decimal Mode").  Nothing here refers to the emulator, except
   that memory is the same abstract store (ld/st). *)
From Verif Require Import Base MemModel.

Record cpu := mkCpu {
  A : Z; X : Z; Y : Z; SP : Z; PC : Z;
  fN : bool; fV : bool; fD : bool; fI : bool; fZ : bool; fC : bool;
  M : mem
}.

Definition b2z (b : bool) : Z := if b then 1 else 0.

(* ---- decoding ---- *)
Inductive mnemonic :=
| ADC | AND | ASL | BIT | CMP | CPX | CPY | DEC | EOR | INC | LDA | LDX | LDY | LSR | ORA | ROL | ROR
| SBC | STA | STX | STY                                              (* memory operand *)
| ASLA | LSRA | ROLA | RORA                                          (* accumulator *)
| CLC | CLD | CLI | CLV | SEC | SED | SEI | DEX | DEY | INX | INY | NOP
| TAX | TAY | TSX | TXA | TXS | TYA | PHA | PHP | PLA | PLP | RTI | RTS | BRK   (* implied *)
| JMP | JSR                                                          (* absolute target *)
| JMPI                                                               (* indirect target *)
| BPL | BMI | BVC | BVS | BCC | BCS | BNE | BEQ.                     (* relative *)

Inductive amode := IMP | IMM | ZP | ZPX | ZPY | ABS | ABSX | ABSY | INDX | INDY | REL.

(* opcode, mnemonic, addressing mode, base cycles, extra cycle on a page crossing *)
Definition row : Type := Z * mnemonic * amode * Z * bool.

Definition alu (m : mnemonic) (imm : Z) : list row :=
  [ (imm, m, IMM, 2, false); (imm - 4, m, ZP, 3, false); (imm + 12, m, ZPX, 4, false); (imm + 4, m, ABS, 4, false);
    (imm + 20, m, ABSX, 4, true); (imm + 16, m, ABSY, 4, true); (imm - 8, m, INDX, 6, false); (imm + 8, m, INDY, 5, true) ].

Definition modify (m : mnemonic) (zp : Z) : list row :=
  [ (zp, m, ZP, 5, false); (zp + 16, m, ZPX, 6, false); (zp + 8, m, ABS, 6, false); (zp + 24, m, ABSX, 7, false) ].

Definition shift (m acc : mnemonic) (zp : Z) : list row := (zp + 4, acc, IMP, 2, false) :: modify m zp.

Definition documented : list row :=
  alu ORA 0x09 ++ alu AND 0x29 ++ alu EOR 0x49 ++ alu ADC 0x69 ++ alu LDA 0xA9 ++ alu CMP 0xC9 ++ alu SBC 0xE9 ++
  [ (0x85, STA, ZP, 3, false); (0x95, STA, ZPX, 4, false); (0x8D, STA, ABS, 4, false); (0x9D, STA, ABSX, 5, false);
    (0x99, STA, ABSY, 5, false); (0x81, STA, INDX, 6, false); (0x91, STA, INDY, 6, false) ] ++
  shift ASL ASLA 0x06 ++ shift ROL ROLA 0x26 ++ shift LSR LSRA 0x46 ++ shift ROR RORA 0x66 ++
  modify DEC 0xC6 ++ modify INC 0xE6 ++
  [ (0x24, BIT, ZP, 3, false); (0x2C, BIT, ABS, 4, false);
    (0xA2, LDX, IMM, 2, false); (0xA6, LDX, ZP, 3, false); (0xB6, LDX, ZPY, 4, false); (0xAE, LDX, ABS, 4, false); (0xBE, LDX, ABSY, 4, true);
    (0xA0, LDY, IMM, 2, false); (0xA4, LDY, ZP, 3, false); (0xB4, LDY, ZPX, 4, false); (0xAC, LDY, ABS, 4, false); (0xBC, LDY, ABSX, 4, true);
    (0x86, STX, ZP, 3, false); (0x96, STX, ZPY, 4, false); (0x8E, STX, ABS, 4, false);
    (0x84, STY, ZP, 3, false); (0x94, STY, ZPX, 4, false); (0x8C, STY, ABS, 4, false);
    (0xE0, CPX, IMM, 2, false); (0xE4, CPX, ZP, 3, false); (0xEC, CPX, ABS, 4, false);
    (0xC0, CPY, IMM, 2, false); (0xC4, CPY, ZP, 3, false); (0xCC, CPY, ABS, 4, false);
    (0x18, CLC, IMP, 2, false); (0xD8, CLD, IMP, 2, false); (0x58, CLI, IMP, 2, false); (0xB8, CLV, IMP, 2, false);
    (0x38, SEC, IMP, 2, false); (0xF8, SED, IMP, 2, false); (0x78, SEI, IMP, 2, false);
    (0xCA, DEX, IMP, 2, false); (0x88, DEY, IMP, 2, false); (0xE8, INX, IMP, 2, false); (0xC8, INY, IMP, 2, false);
    (0xEA, NOP, IMP, 2, false); (0xAA, TAX, IMP, 2, false); (0xA8, TAY, IMP, 2, false); (0xBA, TSX, IMP, 2, false);
    (0x8A, TXA, IMP, 2, false); (0x9A, TXS, IMP, 2, false); (0x98, TYA, IMP, 2, false);
    (0x48, PHA, IMP, 3, false); (0x08, PHP, IMP, 3, false); (0x68, PLA, IMP, 4, false); (0x28, PLP, IMP, 4, false);
    (0x40, RTI, IMP, 6, false); (0x60, RTS, IMP, 6, false); (0x00, BRK, IMP, 7, false);
    (0x4C, JMP, ABS, 3, false); (0x20, JSR, ABS, 6, false); (0x6C, JMPI, ABS, 5, false);
    (0x10, BPL, REL, 2, false); (0x30, BMI, REL, 2, false); (0x50, BVC, REL, 2, false); (0x70, BVS, REL, 2, false);
    (0x90, BCC, REL, 2, false); (0xB0, BCS, REL, 2, false); (0xD0, BNE, REL, 2, false); (0xF0, BEQ, REL, 2, false) ].

(* ---- addressing ---- *)
Definition w16 (v : Z) : Z := v mod 65536.
Definition w8 (v : Z) : Z := v mod 256.
Definition mw (c : cpu) (lo hi : Z) : Z := ld (M c) lo + 256 * ld (M c) hi.

(* the two bytes after the opcode *)
Definition arg8 (c : cpu) : Z := ld (M c) (w16 (PC c + 1)).
Definition arg16 (c : cpu) : Z := mw c (w16 (PC c + 1)) (w16 (PC c + 2)).

Definition ea (m : amode) (c : cpu) : Z :=
  match m with
  | IMM => w16 (PC c + 1)
  | ZP => arg8 c
  | ZPX => w8 (arg8 c + X c)
  | ZPY => w8 (arg8 c + Y c)
  | ABS => arg16 c
  | ABSX => w16 (arg16 c + X c)
  | ABSY => w16 (arg16 c + Y c)
  | INDX => let p := w8 (arg8 c + X c) in mw c p (w8 (p + 1))
  | INDY => w16 (mw c (arg8 c) (w8 (arg8 c + 1)) + Y c)
  | IMP | REL => 0
  end.

Definition ilen (m : amode) : Z :=
  match m with IMP => 1 | IMM | ZP | ZPX | ZPY | INDX | INDY | REL => 2 | ABS | ABSX | ABSY => 3 end.

(* the indexed address lies in another page than the base address *)
Definition crosses (m : amode) (c : cpu) : bool :=
  match m with
  | ABSX => negb ((arg16 c + X c) / 256 =? arg16 c / 256)
  | ABSY => negb ((arg16 c + Y c) / 256 =? arg16 c / 256)
  | INDY => let b := mw c (arg8 c) (w8 (arg8 c + 1)) in negb ((b + Y c) / 256 =? b / 256)
  | _ => false
  end.

(* ---- operations ---- *)
Definition wA v c := mkCpu v (X c) (Y c) (SP c) (PC c) (fN c) (fV c) (fD c) (fI c) (fZ c) (fC c) (M c).
Definition wX v c := mkCpu (A c) v (Y c) (SP c) (PC c) (fN c) (fV c) (fD c) (fI c) (fZ c) (fC c) (M c).
Definition wY v c := mkCpu (A c) (X c) v (SP c) (PC c) (fN c) (fV c) (fD c) (fI c) (fZ c) (fC c) (M c).
Definition wSP v c := mkCpu (A c) (X c) (Y c) v (PC c) (fN c) (fV c) (fD c) (fI c) (fZ c) (fC c) (M c).
Definition wPC v c := mkCpu (A c) (X c) (Y c) (SP c) v (fN c) (fV c) (fD c) (fI c) (fZ c) (fC c) (M c).
Definition wN v c := mkCpu (A c) (X c) (Y c) (SP c) (PC c) v (fV c) (fD c) (fI c) (fZ c) (fC c) (M c).
Definition wV v c := mkCpu (A c) (X c) (Y c) (SP c) (PC c) (fN c) v (fD c) (fI c) (fZ c) (fC c) (M c).
Definition wD v c := mkCpu (A c) (X c) (Y c) (SP c) (PC c) (fN c) (fV c) v (fI c) (fZ c) (fC c) (M c).
Definition wI v c := mkCpu (A c) (X c) (Y c) (SP c) (PC c) (fN c) (fV c) (fD c) v (fZ c) (fC c) (M c).
Definition wZ v c := mkCpu (A c) (X c) (Y c) (SP c) (PC c) (fN c) (fV c) (fD c) (fI c) v (fC c) (M c).
Definition wC v c := mkCpu (A c) (X c) (Y c) (SP c) (PC c) (fN c) (fV c) (fD c) (fI c) (fZ c) v (M c).
Definition wM v c := mkCpu (A c) (X c) (Y c) (SP c) (PC c) (fN c) (fV c) (fD c) (fI c) (fZ c) (fC c) v.

(* N and Z of an 8-bit result *)
Definition wNZ v c := wZ (v =? 0) (wN (128 <=? v) c).

Definition signed (v : Z) : Z := if v <? 128 then v else v - 256.
Definition overflows (v : Z) : bool := (v <? -128) || (127 <? v).

Definition low (v : Z) : Z := v mod 16.
Definition high (v : Z) : Z := v - v mod 16.

(* ADC: binary, and NMOS decimal (sequences 1 and 2) *)
Definition adc (v : Z) (c : cpu) : cpu :=
  let a := A c in
  let k := b2z (fC c) in
  let bin := a + v + k in
  if negb (fD c) then
    wA (w8 bin) (wNZ (w8 bin) (wC (255 <? bin) (wV (overflows (signed a + signed v + k)) c)))
  else
    let al := low a + low v + k in
    let al := if 10 <=? al then low (al + 6) + 16 else al in
    let sum := high a + high v + al in
    let ssum := signed (high a) + signed (high v) + al in   (* sequence 2 *)
    let res := if 160 <=? sum then sum + 96 else sum in
    wA (w8 res) (wZ (w8 bin =? 0) (wN (128 <=? w8 ssum) (wC (255 <? res) (wV (overflows ssum) c)))).

(* SBC: all flags from the binary difference; NMOS decimal (sequence 3) *)
Definition sbc (v : Z) (c : cpu) : cpu :=
  let a := A c in
  let k := b2z (fC c) in
  let bin := a - v + k - 1 in
  let r :=
    if negb (fD c) then w8 bin
    else
      let al := low a - low v + k - 1 in
      let al := if al <? 0 then low (al - 6) - 16 else al in
      let d := high a - high v + al in
      w8 (if d <? 0 then d - 96 else d) in
  wA r (wNZ (w8 bin) (wC (0 <=? bin) (wV (overflows (signed a - signed v + k - 1)) c))).

Definition cmp (reg v : Z) (c : cpu) : cpu := wNZ (w8 (reg - v)) (wC (v <=? reg) c).

(* shifts and rotates: the carry out and the result *)
Definition asl (v : Z) (c : cpu) : bool * Z := (128 <=? v, w8 (2 * v)).
Definition rol (v : Z) (c : cpu) : bool * Z := (128 <=? v, w8 (2 * v + b2z (fC c))).
Definition lsr (v : Z) (c : cpu) : bool * Z := (v mod 2 =? 1, v / 2).
Definition ror (v : Z) (c : cpu) : bool * Z := (v mod 2 =? 1, v / 2 + 128 * b2z (fC c)).

Definition acc_shift (f : Z -> cpu -> bool * Z) (c : cpu) : cpu :=
  let '(k, r) := f (A c) c in wA r (wNZ r (wC k c)).
Definition mem_shift (f : Z -> cpu -> bool * Z) (addr : Z) (c : cpu) : cpu :=
  let '(k, r) := f (ld (M c) addr) c in wM (st (M c) addr r) (wNZ r (wC k c)).
Definition mem_step (d : Z) (addr : Z) (c : cpu) : cpu :=
  let r := w8 (ld (M c) addr + d) in wM (st (M c) addr r) (wNZ r c).

(* the stack lives in page 1 and grows downwards *)
Definition push_byte (v : Z) (c : cpu) : cpu := wSP (w8 (SP c - 1)) (wM (st (M c) (256 + SP c) v) c).
Definition pull_byte (c : cpu) : Z * cpu := let sp := w8 (SP c + 1) in (ld (M c) (256 + sp), wSP sp c).
Definition push_word (v : Z) (c : cpu) : cpu := push_byte (w8 v) (push_byte (w8 (v / 256)) c).
Definition pull_word (c : cpu) : Z * cpu :=
  let '(lo, c) := pull_byte c in let '(hi, c) := pull_byte c in (lo + 256 * hi, c).

(* the status byte *)
Definition status (brk : bool) (c : cpu) : Z :=
  128 * b2z (fN c) + 64 * b2z (fV c) + 32 + 16 * b2z brk + 8 * b2z (fD c) + 4 * b2z (fI c) + 2 * b2z (fZ c) + b2z (fC c).
Definition set_status (v : Z) (c : cpu) : cpu :=
  mkCpu (A c) (X c) (Y c) (SP c) (PC c) (Z.testbit v 7) (Z.testbit v 6) (Z.testbit v 3) (Z.testbit v 2)
    (Z.testbit v 1) (Z.testbit v 0) (M c).

(* the interrupt sequence; BRK pushes the status with B set *)
Definition interrupt (brk : bool) (c : cpu) : cpu :=
  let c := wI true (let c := push_word (PC c) c in push_byte (status brk c) c) in
  wPC (mw c 65534 65535) c.

Definition taken (m : mnemonic) (c : cpu) : bool :=
  match m with
  | BPL => negb (fN c) | BMI => fN c | BVC => negb (fV c) | BVS => fV c
  | BCC => negb (fC c) | BCS => fC c | BNE => negb (fZ c) | BEQ => fZ c
  | _ => false
  end.

(* [c0] is the state before the instruction, for its argument bytes; in [c] PC already points to the next instruction *)
Definition perform (m : mnemonic) (addr : Z) (c0 c : cpu) : cpu :=
  let v := ld (M c) addr in
  match m with
  | ADC => adc v c
  | AND => let r := Z.land (A c) v in wA r (wNZ r c)
  | EOR => let r := Z.lxor (A c) v in wA r (wNZ r c)
  | ORA => let r := Z.lor (A c) v in wA r (wNZ r c)
  | SBC => sbc v c
  | BIT => wN (128 <=? v) (wV (Z.testbit v 6) (wZ (Z.land (A c) v =? 0) c))
  | CMP => cmp (A c) v c
  | CPX => cmp (X c) v c
  | CPY => cmp (Y c) v c
  | LDA => wA v (wNZ v c)
  | LDX => wX v (wNZ v c)
  | LDY => wY v (wNZ v c)
  | STA => wM (st (M c) addr (A c)) c
  | STX => wM (st (M c) addr (X c)) c
  | STY => wM (st (M c) addr (Y c)) c
  | DEC => mem_step (-1) addr c
  | INC => mem_step 1 addr c
  | ASL => mem_shift asl addr c
  | LSR => mem_shift lsr addr c
  | ROL => mem_shift rol addr c
  | ROR => mem_shift ror addr c
  | ASLA => acc_shift asl c
  | LSRA => acc_shift lsr c
  | ROLA => acc_shift rol c
  | RORA => acc_shift ror c
  | CLC => wC false c
  | CLD => wD false c
  | CLI => wI false c
  | CLV => wV false c
  | SEC => wC true c
  | SED => wD true c
  | SEI => wI true c
  | DEX => let r := w8 (X c - 1) in wX r (wNZ r c)
  | DEY => let r := w8 (Y c - 1) in wY r (wNZ r c)
  | INX => let r := w8 (X c + 1) in wX r (wNZ r c)
  | INY => let r := w8 (Y c + 1) in wY r (wNZ r c)
  | NOP => c
  | TAX => wX (A c) (wNZ (A c) c)
  | TAY => wY (A c) (wNZ (A c) c)
  | TSX => wX (SP c) (wNZ (SP c) c)
  | TXA => wA (X c) (wNZ (X c) c)
  | TXS => wSP (X c) c
  | TYA => wA (Y c) (wNZ (Y c) c)
  | PHA => push_byte (A c) c
  | PHP => push_byte (status true c) c
  | PLA => let '(r, c) := pull_byte c in wA r (wNZ r c)
  | PLP => let '(r, c) := pull_byte c in set_status r c
  | RTI => let '(r, c) := pull_byte c in let c := set_status r c in let '(pc, c) := pull_word c in wPC pc c
  | RTS => let '(pc, c) := pull_word c in wPC (w16 (pc + 1)) c
  | BRK => interrupt true (wPC (w16 (PC c + 1)) c)
  | JMP => wPC (arg16 c0) c
  | JSR => (* the high byte of the target is fetched after the return address has been pushed *)
    let c := push_word (w16 (PC c0 + 2)) c in
    wPC (ld (M c0) (w16 (PC c0 + 1)) + 256 * ld (M c) (w16 (PC c0 + 2))) c
  | JMPI => (* the pointer's high byte is fetched from the same page *)
    wPC (mw c addr (addr - addr mod 256 + w8 (addr + 1))) c
  | BPL | BMI | BVC | BVS | BCC | BCS | BNE | BEQ =>
    if taken m c then wPC (w16 (PC c + signed (arg8 c0))) c else c
  end.

(* one instruction of row r *)
Definition run (r : row) (c : cpu) : cpu :=
  let '(_, m, am, _, _) := r in perform m (ea am c) c (wPC (w16 (PC c + ilen am)) c).

(* its duration: a taken branch costs one more cycle, two if the target is in another page *)
Definition duration (r : row) (c : cpu) : Z :=
  let '(_, m, am, n, page) := r in
  n + (if page && crosses am c then 1 else 0)
    + (if taken m c
       then if (PC c + 2) / 256 =? (PC c + 2 + signed (arg8 c)) / 256 then 1 else 2
       else 0).

(* ---- the domain of the theorems ---- *)
(* pages D0, D2, D4 and D6 are the emulated hardware *)
Definition hardware (addr : Z) : bool :=
  existsb (Z.eqb (addr / 256)) [208; 210; 212; 214].

(* instructions with a memory operand at [ea] *)
Definition uses_memory (m : mnemonic) : bool :=
  match m with
  | ADC | AND | ASL | BIT | CMP | CPX | CPY | DEC | EOR | INC | LDA | LDX | LDY | LSR | ORA | ROL | ROR
  | SBC | STA | STX | STY => true
  | _ => false
  end.

(* an interrupt request held by the POKEY is noticed at once by the instructions that can clear I *)
Definition polls (m : mnemonic) : bool := match m with CLI | PLP | RTI => true | _ => false end.
Definition poll (m : mnemonic) (irq : bool) (c : cpu) : bool := polls m && irq && negb (fI c).
Definition run_irq (r : row) (irq : bool) (c : cpu) : cpu :=
  let '(_, m, _, _, _) := r in if poll m irq (run r c) then interrupt false (run r c) else run r c.
Definition duration_irq (r : row) (irq : bool) (c : cpu) : Z :=
  let '(_, m, _, _, _) := r in duration r c + (if poll m irq (run r c) then 7 else 0).

(* ---- phrases used by the statements ---- *)
(* packed decimal *)
Definition bcd (v : Z) : Prop := 0 <= v /\ v / 16 <= 9 /\ v mod 16 <= 9.
Definition dec (v : Z) : Z := 10 * (v / 16) + v mod 16.

(* [t] has the stack pointer of [c] and the same n topmost bytes *)
Definition same_stack (n : Z) (c t : cpu) : Prop :=
  SP t = SP c /\ forall i, 1 <= i <= n -> ld (M t) (256 + w8 (SP c + i)) = ld (M c) (256 + w8 (SP c + i)).

(* the six flags *)
Definition flags_of (c : cpu) : bool * bool * bool * bool * bool * bool := (fN c, fV c, fD c, fI c, fZ c, fC c).

(* the call returns, or runs into undefined behaviour of the listed kinds: it neither hangs nor does anything else undefined *)
Definition ends_with {T} (allowed : list ub_reason) (o : outcome T) : Prop :=
  match o with Ok _ => True | Fail => True | UB r => In r allowed | OutOfFuel => False end.
