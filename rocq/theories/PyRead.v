(* Column.read into an array of the caller. *)
From Coq.Strings Require Import Byte String.
From Coq Require Import List ZArith Bool.
From Verif Require Import Base Dtype Cast Array FS Fmt Attr Block File Py.
Import ListNotations.
Open Scope Z_scope.
Local Open Scope out_scope.

(* A numpy array: address, type of an element, shape and strides in bytes. *)
Record ndarray : Type := mkNd { nd_data : Z; nd_type : bytes; nd_dims : list Z; nd_strides : list Z }.

(* pyxbigfile.pyx:465-503 ColumnLowLevelAPI.read with an array out: what it
   raises or returns, and the memory afterwards. start and length are 64 bit
   integers; their sum is formed in C. The library is told the type of the block,
   not that of the array. shape[0] of an array without dimensions is outside the
   shape. *)
Definition py_read_into (e : env) (f : fs) (b : block) (start length : Z) (o : ndarray) (m : mem) : out (pyres unit * mem) :=
  let length := if length =? -1 then b_size b - start else length in
  let length := if b_size b <? s64 (length + start) then b_size b - start else length in
  match nd_dims o with
  | [] => Undef OOB
  | n :: _ =>
      if negb (n =? length) then Ret (PyRaise ValueError, m) else
      if negb (itemsize (e_me e) (nd_type o) =? itemsize (e_me e) (b_dtype b)) then Ret (PyRaise ValueError, m) else
      a <- big_array_init (e_me e) (nd_data o) (b_dtype b) (nd_dims o) (Some (nd_strides o)) ;;
      '(rc, p) <- big_block_seek b (mkPtr 0 0 0) start ;;
      if negb (rc =? 0) then Ret (PyRaise BigError, m) else
      '(rc, _, m) <- big_block_read e f b p a m ;;
      Ret (if negb (rc =? 0) then PyRaise BigError else PyRet tt, m)
  end.
