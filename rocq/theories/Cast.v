(* Element conversions of cast() (bigfile.c:1315-1418) on the native byte
   representation: integers by two's complement, floats by IEEE 754 binary32
   and binary64 with round-to-nearest-even. *)
From Coq.Strings Require Import Byte String.
From Coq Require Import List ZArith Bool.
From Verif Require Import Base Dtype.
Import ListNotations.
Open Scope Z_scope.

(* Unsigned value of an object representation in native byte order. *)
Definition nat_val (me : endian) (l : bytes) : Z :=
  match me with LE => le_val l | BE => le_val (rev l) end.
Definition nat_enc (me : endian) (n : nat) (z : Z) : bytes :=
  match me with LE => le_enc n z | BE => rev (le_enc n z) end.

(* ------------------------------------------------------------------ *)
(* IEEE binary formats: f_mw mantissa bits stored, f_ew exponent bits. *)
Record ffmt : Type := mkFmt { f_mw : Z; f_ew : Z }.
Definition fmt32 := mkFmt 23 8.
Definition fmt64 := mkFmt 52 11.

Definition f_bias (f : ffmt) : Z := 2 ^ (f_ew f - 1) - 1.
(* exponent of the last place of subnormal numbers *)
Definition f_emin (f : ffmt) : Z := 1 - f_bias f - f_mw f.
Definition f_infbits (f : ffmt) : Z := (2 ^ f_ew f - 1) * 2 ^ f_mw f.
Definition f_signbit (f : ffmt) : Z := 2 ^ (f_mw f + f_ew f).

(* A decoded datum: finite value (-1)^s * m * 2^e, infinity, or NaN with the
   stored mantissa field. *)
Inductive fval : Type :=
| FFin (s : bool) (m e : Z)
| FInf (s : bool)
| FNan (s : bool) (payload : Z).

Definition f_decode (f : ffmt) (bits : Z) : fval :=
  let s := f_signbit f <=? bits in
  let mag := bits mod f_signbit f in
  let ex := mag / 2 ^ f_mw f in
  let mant := mag mod 2 ^ f_mw f in
  if ex =? 2 ^ f_ew f - 1 then
    (if mant =? 0 then FInf s else FNan s mant)
  else if ex =? 0 then FFin s mant (f_emin f)
  else FFin s (mant + 2 ^ f_mw f) (ex - 1 + f_emin f).

Definition f_sign (f : ffmt) (s : bool) : Z := if s then f_signbit f else 0.

(* Round m * 2^e (m >= 0) to the format, nearest even; returns the bits
   without the sign. The target exponent t is that of the last kept place. *)
Definition f_round (f : ffmt) (m e : Z) : Z :=
  if m =? 0 then 0 else
  let t := Z.max (f_emin f) (Z.log2 m + e - f_mw f) in
  let q :=
    if t <=? e then m * 2 ^ (e - t)
    else
      let h := 2 ^ (t - e) in
      let q := m / h in
      let r := m mod h in
      if (2 * r <? h) || ((2 * r =? h) && Z.even q) then q else q + 1 in
  let bits := (t - f_emin f) * 2 ^ f_mw f + q in
  if f_infbits f <=? bits then f_infbits f else bits.

(* Encode a datum; a NaN coming from a format with mantissa width mw0 keeps
   the leading payload bits and becomes quiet (x86 and ARM behaviour; the C
   standard leaves it open). *)
Definition f_encode (f : ffmt) (mw0 : Z) (v : fval) : Z :=
  match v with
  | FFin s m e => f_sign f s + f_round f m e
  | FInf s => f_sign f s + f_infbits f
  | FNan s p =>
      let p' := if mw0 <=? f_mw f then p * 2 ^ (f_mw f - mw0)
                else p / 2 ^ (mw0 - f_mw f) in
      f_sign f s + f_infbits f + Z.lor p' (2 ^ (f_mw f - 1))
  end.

(* Truncation toward zero of a finite datum. *)
Definition f_trunc (v : fval) : option Z :=
  match v with
  | FFin s m e =>
      let a := if 0 <=? e then m * 2 ^ e else m / 2 ^ (- e) in
      Some (if s then - a else a)
  | _ => None
  end.

(* ------------------------------------------------------------------ *)
(* The scalar C types named by the CAST table. *)
Inductive sty : Type := I4 | I8 | U4 | U8 | F4 | F8 | B1.

Definition sty_of (suf : bytes) : option sty :=
  if bytes_eqb suf (lit "i4") then Some I4
  else if bytes_eqb suf (lit "i8") then Some I8
  else if bytes_eqb suf (lit "u4") then Some U4
  else if bytes_eqb suf (lit "u8") then Some U8
  else if bytes_eqb suf (lit "f4") then Some F4
  else if bytes_eqb suf (lit "f8") then Some F8
  else if bytes_eqb suf (lit "b1") then Some B1
  else None.

(* sizeof *)
Definition sty_size (t : sty) : nat :=
  match t with I4 | U4 | F4 => 4 | I8 | U8 | F8 => 8 | B1 => 1 end%nat.

Inductive kind3 : Type := KInt (signed : bool) | KFlt (f : ffmt).
(* char is taken to be signed, as on x86. *)
Definition sty_kind (t : sty) : kind3 :=
  match t with
  | I4 | I8 | B1 => KInt true
  | U4 | U8 => KInt false
  | F4 => KFlt fmt32
  | F8 => KFlt fmt64
  end.

(* Value of an integer object of n bytes. *)
Definition int_of_bits (signed : bool) (n : nat) (bits : Z) : Z :=
  if signed && (2 ^ (8 * Z.of_nat n - 1) <=? bits)
  then bits - 2 ^ (8 * Z.of_nat n) else bits.
Definition int_in_range (signed : bool) (n : nat) (z : Z) : bool :=
  if signed
  then (- 2 ^ (8 * Z.of_nat n - 1) <=? z) && (z <? 2 ^ (8 * Z.of_nat n - 1))
  else (0 <=? z) && (z <? 2 ^ (8 * Z.of_nat n)).

(* bigfile.c:1315-1324 CAST: *p1 = *p2 between two scalar types. Integer to
   integer is modulo 2^width; integer to float and float to float round to
   nearest; float to integer truncates and is undefined out of range. *)
Definition scalar_bits (d s : sty) (bits : Z) : out Z :=
  match sty_kind d, sty_kind s with
  | KInt _, KInt sg =>
      Ret (int_of_bits sg (sty_size s) bits mod 2 ^ (8 * Z.of_nat (sty_size d)))
  | KFlt f, KInt sg =>
      let z := int_of_bits sg (sty_size s) bits in
      Ret (f_encode f (f_mw f) (FFin (z <? 0) (Z.abs z) 0))
  | KInt sg, KFlt f =>
      match f_trunc (f_decode f bits) with
      | Some z => if int_in_range sg (sty_size d) z
                  then Ret (z mod 2 ^ (8 * Z.of_nat (sty_size d)))
                  else Undef FloatRange
      | None => Undef FloatRange
      end
  | KFlt fd, KFlt fs => Ret (f_encode fd (f_mw fs) (f_decode fs bits))
  end.

Definition scalar_cast (me : endian) (d s : sty) (l : bytes) : out bytes :=
  bind (scalar_bits d s (nat_val me l))
       (fun z => Ret (nat_enc me (sty_size d) z)).

(* bigfile.c:1325-1334 CAST2 for cplx64 / cplx128: both parts. *)
Definition cplx_cast (me : endian) (d s : sty) (l : bytes) : out bytes :=
  bind (scalar_cast me d s (firstn (sty_size s) l)) (fun re =>
  bind (scalar_cast me d s (skipn (sty_size s) l)) (fun im =>
  Ret (re ++ im))).

(* bigfile.c:1364-1416: the table of supported conversions between different
   element types: the source width, the destination width and the element
   function. None: "Unsupported conversion". *)
Definition cast_table (me : endian) (d s : bytes)
  : option (nat * nat * (bytes -> out bytes)) :=
  if bytes_eqb d (lit "c8") then
    (if bytes_eqb s (lit "c16") then Some (16%nat, 8%nat, cplx_cast me F4 F8) else None)
  else if bytes_eqb d (lit "c16") then
    (if bytes_eqb s (lit "c8") then Some (8%nat, 16%nat, cplx_cast me F8 F4) else None)
  else
    match sty_of d, sty_of s with
    | Some B1, _ => None
    | Some td, Some ts => Some (sty_size ts, sty_size td, scalar_cast me td ts)
    | _, _ => None
    end.
