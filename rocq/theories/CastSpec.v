(* Meaning of stored elements, read off the element type alone. *)
From Coq.Strings Require Import Byte String.
From Coq Require Import List ZArith Bool.
From Verif Require Import Base Dtype.
Import ListNotations.
Open Scope Z_scope.

(* The bits of an element whose type starts with its byte order. *)
Definition elem_bits (d : bytes) (v : bytes) : Z :=
  match d with
  | c :: _ => if Byte.eqb c ">"%byte then le_val (rev v) else le_val v
  | [] => 0
  end.

(* Integer types: byte order, name, width in bits, signedness. *)
Inductive int_type : bytes -> Z -> bool -> Prop :=
| it_i4 c : c = "<"%byte \/ c = ">"%byte -> int_type (c :: lit "i4") 32 true
| it_i8 c : c = "<"%byte \/ c = ">"%byte -> int_type (c :: lit "i8") 64 true
| it_u4 c : c = "<"%byte \/ c = ">"%byte -> int_type (c :: lit "u4") 32 false
| it_u8 c : c = "<"%byte \/ c = ">"%byte -> int_type (c :: lit "u8") 64 false
| it_b1 c : c = "<"%byte \/ c = ">"%byte -> int_type (c :: lit "b1") 8 true.

(* z is a value of the type *)
Definition in_type (width : Z) (signed : bool) (z : Z) : Prop :=
  if signed then - 2 ^ (width - 1) <= z < 2 ^ (width - 1) else 0 <= z < 2 ^ width.

(* Two's complement: the value with these bits. *)
Definition int_value (d : bytes) (width : Z) (signed : bool) (v : bytes) : Z :=
  let bits := elem_bits d v in
  if signed && (2 ^ (width - 1) <=? bits) then bits - 2 ^ width else bits.

(* IEEE 754 interchange formats, read off the bits: a finite datum is
   (-1)^s * m * 2^e with the mantissa m an integer. mw: stored bits of the
   mantissa; ew: bits of the exponent. *)
Definition fl_exp (mw ew bits : Z) : Z := (bits / 2 ^ mw) mod 2 ^ ew.
Definition fl_man (mw ew bits : Z) : Z := bits mod 2 ^ mw.
Definition fl_neg (mw ew bits : Z) : bool := 2 ^ (mw + ew) <=? bits.
Definition is_nan (mw ew bits : Z) : bool := (fl_exp mw ew bits =? 2 ^ ew - 1) && negb (fl_man mw ew bits =? 0).
Definition is_inf (mw ew bits : Z) : bool := (fl_exp mw ew bits =? 2 ^ ew - 1) && (fl_man mw ew bits =? 0).
(* The magnitude in units of the smallest positive number 2^(2-2^(ew-1)-mw). *)
Definition fl_mag (mw ew bits : Z) : Z :=
  if fl_exp mw ew bits =? 0 then fl_man mw ew bits
  else (2 ^ mw + fl_man mw ew bits) * 2 ^ (fl_exp mw ew bits - 1).
Definition fl_unit (mw ew : Z) : Z := 2 - 2 ^ (ew - 1) - mw.
(* a * 2^ea = b * 2^eb *)
Definition same_scaled (a ea b eb : Z) : Prop :=
  a * 2 ^ (ea - Z.min ea eb) = b * 2 ^ (eb - Z.min ea eb).

Inductive float_type : bytes -> Z -> Z -> Prop :=
| ft_f4 c : c = "<"%byte \/ c = ">"%byte -> float_type (c :: lit "f4") 23 8
| ft_f8 c : c = "<"%byte \/ c = ">"%byte -> float_type (c :: lit "f8") 52 11.

(* Complex types: the types of the parts. *)
Inductive complex_type : bytes -> bytes -> nat -> Prop :=
| ct_c8 c : c = "<"%byte \/ c = ">"%byte -> complex_type (c :: lit "c8") (c :: lit "f4") 4
| ct_c16 c : c = "<"%byte \/ c = ">"%byte -> complex_type (c :: lit "c16") (c :: lit "f8") 8.
(* Real and imaginary part: the first and the second half. *)
Definition real_part (v : bytes) : bytes := firstn (length v / 2) v.
Definition imag_part (v : bytes) : bytes := skipn (length v / 2) v.

(* Finite, and its value in units of 2^fl_unit. *)
Definition fl_finite (mw ew bits : Z) : Prop := fl_exp mw ew bits <> 2 ^ ew - 1.
Definition fl_signed (mw ew bits : Z) : Z :=
  if fl_neg mw ew bits then - fl_mag mw ew bits else fl_mag mw ew bits.
(* The number M * 2^E is at least as near to the finite datum r as to any
   other finite datum of the format. *)
Definition nearest (mw ew M E r : Z) : Prop :=
  let u := fl_unit mw ew in
  let B := Z.min E u in
  forall x, 0 <= x < 2 ^ (mw + ew + 1) -> fl_finite mw ew x ->
    Z.abs (M * 2 ^ (E - B) - fl_signed mw ew r * 2 ^ (u - B)) <=
    Z.abs (M * 2 ^ (E - B) - fl_signed mw ew x * 2 ^ (u - B)).
(* |M| * 2^E is at least the largest finite number plus half a unit in its
   last place. *)
Definition too_large (mw ew M E : Z) : Prop :=
  let u := fl_unit mw ew in
  let B := Z.min E u in
  (4 * 2 ^ mw - 1) * 2 ^ (2 ^ ew - 3 + u - B) <= 2 * (Z.abs M * 2 ^ (E - B)).

(* The datum b is M * 2^E correctly rounded. *)
Definition rounded (mw ew M E b : Z) : Prop :=
  (fl_finite mw ew b /\ nearest mw ew M E b) \/
  (is_inf mw ew b = true /\ (M <> 0 -> fl_neg mw ew b = (M <? 0)) /\ too_large mw ew M E).
