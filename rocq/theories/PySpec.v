(* What Python code expects of a sequence of rows. *)
From Coq.Strings Require Import Byte String.
From Coq Require Import List ZArith Bool.
From Verif Require Import Base Dtype Cast Array FS Fmt Attr Block Spec AttrSpec OpenSpec HistSpec FileSpec Py.
Import ListNotations.
Open Scope Z_scope.

(* l[start:stop] of Python: an index below zero counts from the end, indices
   out of range are clipped; empty if the start is not before the stop. *)
Definition bound (n : Z) (dflt : Z) (i : option Z) : Z :=
  match i with
  | None => dflt
  | Some i => Z.min n (Z.max 0 (if i <? 0 then i + n else i))
  end.
Definition list_slice {A} (l : list A) (start stop : option Z) : list A :=
  let lo := bound (zlen l) 0 start in
  let hi := bound (zlen l) (zlen l) stop in
  firstn (Z.to_nat (hi - lo)) (skipn (Z.to_nat lo) l).
(* l[i] of Python. None: IndexError. *)
Definition list_item {A} (l : list A) (i : Z) : option A :=
  if (i <? - zlen l) || (zlen l <=? i) then None
  else nth_error l (Z.to_nat (if i <? 0 then i + zlen l else i)).

(* numpy.empty gives memory that exists. *)
Definition alloc_ok (alloc : Z -> Z * mem) : Prop :=
  forall n k, 0 <= k < n -> snd (alloc n) (fst (alloc n) + k) <> None.

(* The numpy array a in the memory m has the element type dt, the given rows
   of nmemb elements of isz bytes, and is in C order. *)
Definition array_rows (isz nmemb : Z) (dt : bytes) (a : array) (m : mem) (rows : list bytes) : Prop :=
  a_dtype a = dt /\
  a_dims a = (if nmemb =? 1 then [zlen rows] else [zlen rows; nmemb]) /\
  a_strides a = (if nmemb =? 1 then [isz] else [isz * nmemb; isz]) /\
  load m (a_data a) (length (concat rows)) = Some (concat rows).
(* The same of a single row: a scalar or a vector. *)
Definition array_row (isz nmemb : Z) (dt : bytes) (a : array) (m : mem) (row : bytes) : Prop :=
  a_dtype a = dt /\
  a_dims a = (if nmemb =? 1 then [] else [nmemb]) /\
  a_strides a = (if nmemb =? 1 then [] else [isz]) /\
  load m (a_data a) (length row) = Some row.

(* The table shows these rows, all of them. *)
Definition shows_all (w : Z) (t : table) (rows : list bytes) : Prop :=
  zlen rows = t_size t /\ Forall (fun v => length v = Z.to_nat w) rows /\
  forall r v, nth_error rows r = Some v -> shows w t (Z.of_nat r) v.

(* The handle b on the files f behaves as a block with the table t from now
   on. *)
Definition behaves (e : env) (dt : bytes) (nmemb : Z) (f : fs) (b : block) (t : table) : Prop :=
  forall os, history_ok (e_me e) dt nmemb (t_sizes t) os ->
  exists xs f' b' t', hrun e (f, b) os = Ret (xs, (f', b')) /\ hspecs (e_me e) dt nmemb t os xs t' /\ b_size b' = t_size t'.

(* The number of files create_from_array uses: as given, or one for every 32
   million rows. *)
Definition nfile_of (size : Z) (N : option Z) : Z := match N with Some n => n | None => (size + 33554431) / 33554432 end.
(* The circumstances in which a block is made from an array: a proper name
   whose place is free, in a file that exists; rows of items elements of a
   type the header can hold, that fit the transfer buffer; numbers of rows and
   files that do not overflow. *)
Record new_from (e : env) (f : fs) (bf nm d : bytes) (items : Z) (rows : list bytes) (N : option Z) : Prop := {
  nf_name : block_name (path_join bf nm);
  nf_made : way_made f (resolve bf);
  nf_free : creatable f (path_join bf nm);
  nf_attr1 : fs_get f (attr1_path (path_join bf nm)) = None;
  nf_items : 0 < items < 2 ^ 31;
  nf_type : header_type (dtype_normalize (e_me e) d);
  nf_dt : dt_ok (e_me e) (dtype_normalize (e_me e) d);
  nf_chunk : itemsize (e_me e) (dtype_normalize (e_me e) d) * items <= e_chunk e;
  nf_width : itemsize (e_me e) (dtype_normalize (e_me e) d) * items < 2 ^ 31;
  nf_rows : Forall (fun v => length v = Z.to_nat (itemsize (e_me e) (dtype_normalize (e_me e) d) * items)) rows;
  nf_size : zlen rows * items < 2 ^ 63;
  nf_N : match N with Some n => 0 <= n <= 2 ^ 24 /\ (n = 0 -> rows = []) /\ zlen rows * n < 2 ^ 63 | None => zlen rows < 2 ^ 43 end
}.
