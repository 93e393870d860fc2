(** * PmfSweep: complete sweeps of the small domains of the logarithmic number
    format (256 bytes, 2048 mantissas, 512 fractions), by computation. Every
    other domain is reduced to these by proof (PmfFacts.v). *)
From Coq Require Import ZArith Bool List Lia.
From Verif Require Import Base Pmf.
Import ListNotations.
Open Scope Z_scope.

(** mantissa part of [pmfl_from_u16]: 11 bits in, 0..512 out *)
Definition mant (m : Z) : Z :=
  let index := u8 (Z.shiftr m 3) in
  let offset := tbl log2_tbl index in
  let offset :=
    if Z.land m 7 >? 2 then
      let index := u8 (index + 1) in
      let offset := u8 (offset + tbl log2_tbl index) in
      u8 (offset + 1)
    else u8 (Z.shiftl offset 1) in
  Z.shiftr (u16 (m + offset)) 2.

(** mantissa part of [pmfl_to_u16]: 9 bits in, 1024..2047 out *)
Definition pw (k : Z) : Z :=
  let x := i16 (k + 512) in
  let index := u8 (Z.shiftr (u16 x) 1) in
  let x := i16 (Z.shiftl x 1) in
  let offset := tbl pow2_tbl index in
  let offset :=
    if negb (Z.land x 2 =? 0) then
      let index := u8 (index + 1) in
      let offset := u8 (offset + tbl pow2_tbl index) in
      Z.shiftr offset 1
    else offset in
  i16 (x - offset).

Definition mono_at (f : Z -> Z) (x : Z) : bool := f x <=? f (x + 1).

Definition rt_mant (m : Z) : bool :=
  let v := mant m in
  let p := if v =? 512 then 2048 else pw v in
  (500 * (2 * p - (2048 + m)) <=? 2048 + m) && (500 * (2049 + m - 2 * p) <=? 2049 + m).

Lemma mant_mono_sweep : sweep (mono_at mant) 0 2047 = true.
Proof. vm_compute. reflexivity. Qed.
Lemma pw_mono_sweep : sweep (mono_at pw) 0 511 = true.
Proof. vm_compute. reflexivity. Qed.
Lemma leading_zeros_sweep : sweep (fun x => leading_zeros x =? 7 - Z.log2 x) 1 256 = true.
Proof. vm_compute. reflexivity. Qed.
Lemma from_u8_mono_sweep : sweep (mono_at pmfl_from_u8) 0 255 = true.
Proof. vm_compute. reflexivity. Qed.
Lemma to_u32_boundary_sweep : sweep (fun e => mono_at pmfl_to_u32 (512 * e + 511)) 0 32 = true.
Proof. vm_compute. reflexivity. Qed.
Lemma to_u16_boundary_sweep : sweep (fun e => mono_at pmfl_to_u16 (512 * e + 511)) 0 16 = true.
Proof. vm_compute. reflexivity. Qed.
Lemma round_trip_0_sweep :
  sweep (fun x => Z.abs (pmfl_to_u32 (pmfl_from_u16 x) - x) * 500 <=? x) 0 1024 = true.
Proof. vm_compute. reflexivity. Qed.
Lemma round_trip_mant_sweep : sweep rt_mant 0 2048 = true.
Proof. vm_compute. reflexivity. Qed.
Lemma round_trip_exact_sweep : sweep (fun x => pmfl_to_u32 (pmfl_from_u16 x) =? x) 0 514 = true.
Proof. vm_compute. reflexivity. Qed.
