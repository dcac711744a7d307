(* ADC and SBC of the emulated 6502 against CpuSpec.v, for all operands in binary and decimal mode *)
From Verif Require Import Base InfoProofs MemModel MachineModel CpuSpec.

(* the pure parts of ADC and SBC: a, nz, c, overflow *)
Definition adc_m (d : bool) (a data k : Z) : Z * Z * Z * Z :=
  let tmp := a + data + k in
  let nz := Z.land tmp 255 in
  if negb d then (nz, nz, Z.shiftr tmp 8, add_overflow data a tmp)
  else
    let al := Z.land a 15 + Z.land data 15 + k in
    let tmp' := if 10 <=? al then tmp + (if al <? 26 then 6 else -10) else tmp in
    let nz' := if (10 <=? al) && negb (nz =? 0) then Z.land tmp' 128 + 1 else nz in
    if 160 <=? tmp' then (Z.land (tmp' - 160) 255, nz', 1, add_overflow data a tmp')
    else (tmp', nz', 0, add_overflow data a tmp').

Definition adc_s (d : bool) (a v k : Z) : Z * bool * bool * bool * bool :=
  let c := adc v (mkCpu a 0 0 0 0 false false d false false (k =? 1) mem0) in
  (A c, fN c, fZ c, fC c, fV c).

Definition sbc_m (d : bool) (a data k : Z) : Z * Z * Z * Z :=
  let borrow := k - 1 in
  let tmp := a - data + borrow in
  let al := Z.land a 15 - Z.land data 15 + borrow in
  let c := if 0 <=? tmp then 1 else 0 in
  let a1 := Z.land tmp 255 in
  let o := Z.land (Z.shiftr (Z.land (Z.lxor data a) (Z.lxor a tmp)) 1) 64 in
  (if negb d then a1
   else
     let a2 := if al <? 0 then a1 + (if al <? -10 then 10 else -6) else a1 in
     if c =? 0 then Z.land (a2 - 96) 255 else a2, a1, c, o).

Definition sbc_s (d : bool) (a v k : Z) : Z * bool * bool * bool * bool :=
  let c := sbc v (mkCpu a 0 0 0 0 false false d false false (k =? 1) mem0) in
  (A c, fN c, fZ c, fC c, fV c).

(* the encodings agree, and stay in range *)
Definition agree (m : Z * Z * Z * Z) (s : Z * bool * bool * bool * bool) : bool :=
  let '(a, nz, c, o) := m in
  let '(a', n, z, c', v) := s in
  (a =? a') && Bool.eqb (128 <=? nz) n && Bool.eqb (nz mod 256 =? 0) z && Bool.eqb (c =? 1) c' && Bool.eqb (o =? 64) v
  && ((o =? 64) || (o =? 0)) && ((c =? 0) || (c =? 1)) && (0 <=? a) && (a <? 256) && (0 <=? nz) && (nz <? 256).

Definition sweep (m : bool -> Z -> Z -> Z -> Z * Z * Z * Z) (f : bool -> Z -> Z -> Z -> Z * bool * bool * bool * bool) : bool :=
  let r := zrange 256 in
  forallb (fun d => forallb (fun k => forallb (fun a => forallb (fun v => agree (m d a v k) (f d a v k)) r) r) [0; 1]) [false; true].

Lemma adc_sweep : sweep adc_m adc_s = true.
Proof. vm_compute. reflexivity. Qed.
Lemma sbc_sweep : sweep sbc_m sbc_s = true.
Proof. vm_compute. reflexivity. Qed.
