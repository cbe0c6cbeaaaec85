(* Vocabulary for text: decimal numerals and printed rows. *)
From Coq.Strings Require Import Byte String.
From Coq Require Import List ZArith Bool.
From Verif Require Import Base Dtype Spec HistSpec CastSpec.
Import ListNotations.
Open Scope Z_scope.

(* '0' is character 48. *)
Definition decimal_digit (c : byte) : Prop := 48 <= b2z c <= 57.
Definition decimal_value (ds : bytes) : Z := fold_left (fun a c => 10 * a + (b2z c - 48)) ds 0.

(* t is a run of digits, perhaps after a minus sign, that stands for z. *)
Definition number (t : bytes) (z : Z) : Prop :=
  exists (neg : bool) (ds : bytes), t = (if neg then "-"%byte :: ds else ds) /\ ds <> [] /\ Forall decimal_digit ds /\
    z = (if neg then - decimal_value ds else decimal_value ds).
(* The usual way to write z: no leading zeros, a minus sign only below zero. *)
Definition numeral (t : bytes) (z : Z) : Prop :=
  exists ds, t = (if z <? 0 then "-"%byte :: ds else ds) /\ ds <> [] /\ Forall decimal_digit ds /\
    Z.abs z = decimal_value ds /\ (hd x00 ds = "0"%byte -> ds = lit "0").

(* Elements of an integer type, printed with a blank after each. *)
Inductive elems_text (d : bytes) (width : Z) (signed : bool) : list bytes -> bytes -> Prop :=
| et_nil : elems_text d width signed [] []
| et_cons v vs t r : numeral t (int_value d width signed v) -> elems_text d width signed vs r ->
    elems_text d width signed (v :: vs) (t ++ lit " " ++ r).
(* Rows of such elements, one line each. *)
Inductive rows_text (d : bytes) (width : Z) (signed : bool) : list bytes -> bytes -> Prop :=
| rt_nil : rows_text d width signed [] []
| rt_cons vs t rows r : Forall (fun v => Z.of_nat (length v) * 8 = width) vs -> elems_text d width signed vs t ->
    rows_text d width signed rows r -> rows_text d width signed (concat vs :: rows) (t ++ x0a :: r).

(* Options -o start and -c count (-1: not given) of bigfile-cat on a block of
   T rows: the number of rows asked for. *)
Definition rows_asked (T start count : Z) : Z :=
  Z.max 0 (if (count =? -1) || (T <? start + count) then T - start else count).
(* Where reading n rows from start ends when c rows are read at a time and the
   last read is not cut, except at the end of the block. *)
Definition last_row (T start n c : Z) : Z := if n <=? 0 then start else Z.min T (start + (n + c - 1) / c * c).

(* The table shows these rows from row o on. *)
Definition shows_from (w : Z) (t : table) (o : Z) (rows : list bytes) : Prop :=
  Forall (fun v => length v = Z.to_nat w) rows /\ forall j v, nth_error rows j = Some v -> shows w t (o + Z.of_nat j) v.
