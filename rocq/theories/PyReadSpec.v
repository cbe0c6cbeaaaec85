(* What Column.read into an array of the caller is for. *)
From Coq.Strings Require Import Byte String.
From Coq Require Import List ZArith Bool.
From Verif Require Import Base Dtype Array Spec PyRead.
Import ListNotations.
Open Scope Z_scope.

(* The number of rows that a read of length rows from start on gets from a block
   of size rows: -1 stands for all the rest, and no row behind the end. *)
Definition asked (size start length : Z) : Z :=
  if length =? -1 then size - start else if size <? start + length then size - start else length.

(* The array, taken for one of type dt. *)
Definition seen_as (dt : bytes) (o : ndarray) : array := mkArray (nd_data o) dt (nd_dims o) (nd_strides o) (zprod (nd_dims o)).

(* The array has n rows of nmemb elements of isz bytes, which do not overlap. *)
Record out_fits (nmemb isz n : Z) (o : ndarray) : Prop := {
  of_rows : match nd_dims o with [] => False | k :: rest => k = n /\ zprod rest = nmemb end;
  of_pos : 0 <= n;
  of_dims : 0 < n -> Forall (fun k => 0 < k) (nd_dims o);
  of_strides : length (nd_strides o) = length (nd_dims o);
  of_ndim : zlen (nd_dims o) <= 32;
  of_disjoint : elems_disjoint (elem_addr (seen_as [] o)) isz 0 (n * nmemb)
}.
