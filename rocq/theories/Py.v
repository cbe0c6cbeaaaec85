(* The Python layer: indexing of columns and creation from arrays. *)
From Coq.Strings Require Import Byte String.
From Coq Require Import List ZArith Bool.
From Verif Require Import Base Dtype Cast Array FS Fmt Attr Block File Split.
Import ListNotations.
Open Scope Z_scope.
Local Open Scope out_scope.

(* What a Python call returns or raises. BigError is bigfile.Error. *)
Inductive pyexn : Type := ValueError | IndexError | BigError | NameError | KeyError | TypeError | AssertionError.
Inductive pyres (A : Type) : Type :=
| PyRet (a : A)
| PyRaise (x : pyexn).
Arguments PyRet {A} a.
Arguments PyRaise {A} x.
Definition py_bind {A B} (m : out (pyres A)) (h : A -> out (pyres B)) : out (pyres B) :=
  r <- m ;; match r with PyRet a => h a | PyRaise x => Ret (PyRaise x) end.

(* The arguments of b[...]. *)
Inductive pyindex : Type :=
| ISlice (start stop step : option Z)
| IEllipsis
| IInt (i : Z).

(* slice.indices(n) of Python, for n >= 0 (documentation of the sequence
   types; CPython Objects/sliceobject.c): None if the step is zero. *)
Definition slice_indices (start stop step : option Z) (n : Z) : option (Z * Z * Z) :=
  let step := match step with Some s => s | None => 1 end in
  if step =? 0 then None else
  let lower := if step <? 0 then -1 else 0 in
  let upper := if step <? 0 then n - 1 else n in
  let clip i := if i <? 0 then Z.max (i + n) lower else Z.min i upper in
  Some (match start with Some i => clip i | None => if step <? 0 then upper else lower end,
        match stop with Some i => clip i | None => if step <? 0 then lower else upper end,
        step).

Section Column.
  Variables (e : env).
  (* numpy.empty: the address of n fresh bytes, and the memory that has them *)
  Variable alloc : Z -> Z * mem.

  (* numpy.empty(dtype = self.dtype, shape = length): one dimension if
     self.bb.nmemb is 1, two otherwise (pyxbigfile.pyx:288-295); in C order *)
  Definition py_dims (b : block) (length : Z) : list Z :=
    if b_nmemb b =? 1 then [length] else [length; b_nmemb b].
  Definition np_empty (b : block) (length : Z) : out (array * mem) :=
    let '(p, m) := alloc (length * (itemsize (e_me e) (b_dtype b) * b_nmemb b)) in
    a <- big_array_init (e_me e) p (b_dtype b) (py_dims b length)
           (Some (fst (contig_strides (itemsize (e_me e) (b_dtype b)) (py_dims b length)))) ;;
    Ret (a, m).

  (* pyxbigfile.pyx:465-503 ColumnLowLevelAPI.read with out = None. start and
     length are 64 bit integers; their sum is formed in C. numpy.empty raises
     ValueError for a negative length. *)
  Definition py_read (f : fs) (b : block) (start length : Z) : out (pyres (array * mem)) :=
    let length := if length =? -1 then b_size b - start else length in
    let length := if b_size b <? s64 (length + start) then b_size b - start else length in
    if length <? 0 then Ret (PyRaise ValueError) else
    '(a, m) <- np_empty b length ;;
    '(rc, p) <- big_block_seek b (mkPtr 0 0 0) start ;;
    if negb (rc =? 0) then Ret (PyRaise BigError) else
    '(rc, _, m) <- big_block_read e f b p a m ;;
    if negb (rc =? 0) then Ret (PyRaise BigError) else Ret (PyRet (a, m)).

  (* __init__.py:64-75 Column.__getitem__, for a slice *)
  Definition py_getslice (f : fs) (b : block) (start stop step : option Z) : out (pyres (array * mem)) :=
    match slice_indices start stop step (b_size b) with
    | None => Ret (PyRaise ValueError)
    | Some (lo, hi, step) =>
        if negb (step =? 1) then Ret (PyRaise ValueError) else py_read f b lo (hi - lo)
    end.

  (* [0] of a numpy array *)
  Definition np_first (a : array) : pyres array :=
    match a_dims a, a_strides a with
    | d :: dims, s :: strides =>
        if 0 <? d then PyRet (mkArray (a_data a) (a_dtype a) dims strides (zprod dims)) else PyRaise IndexError
    | _, _ => PyRaise IndexError
    end.

  (* __init__.py:28-45 _enhance_slicefunc around __getitem__ *)
  Definition py_getitem (f : fs) (b : block) (i : pyindex) : out (pyres (array * mem)) :=
    match i with
    | ISlice start stop step => py_getslice f b start stop step
    | IEllipsis => py_getslice f b None None None
    | IInt i =>
        py_bind (py_getslice f b (Some i) (Some (i + 1)) None) (fun '(a, m) =>
          Ret (match np_first a with PyRet a => PyRet (a, m) | PyRaise x => PyRaise x end))
    end.

  (* pyxbigfile.pyx:406-428 ColumnLowLevelAPI.write: the array a in the
     memory m *)
  Definition py_write (f : fs) (b : block) (start : Z) (a : array) (m : mem) : out (pyres unit * (fs * block)) :=
    '(rc, p) <- big_block_seek b (mkPtr 0 0 0) start ;;
    if negb (rc =? 0) then Ret (PyRaise BigError, (f, b)) else
    '(rc, f', b', _, _) <- big_block_write e f b p a m ;;
    Ret (if negb (rc =? 0) then PyRaise BigError else PyRet tt, (f', b')).

  (* __init__.py:77-87 Column.__setitem__ *)
  Definition py_setslice (f : fs) (b : block) (start stop step : option Z) (a : array) (m : mem) : out (pyres unit * (fs * block)) :=
    match slice_indices start stop step (b_size b) with
    | None => Ret (PyRaise ValueError, (f, b))
    | Some (lo, _, step) =>
        if negb (step =? 1) then Ret (PyRaise ValueError, (f, b)) else py_write f b lo a m
    end.
  Definition py_setitem (f : fs) (b : block) (i : pyindex) (a : array) (m : mem) : out (pyres unit * (fs * block)) :=
    match i with
    | ISlice start stop step => py_setslice f b start stop step a m
    | IEllipsis => py_setslice f b None None None a m
    | IInt i => py_setslice f b (Some i) (Some (i + 1)) None a m
    end.

  (* pyxbigfile.pyx:358-404 ColumnLowLevelAPI.create with a dtype: d is
     dtype.base.str, items the number of elements per row *)
  Definition py_create (f : fs) (bf blockname d : bytes) (items size Nfile : Z) : out (fs * pyres block) :=
    if Nfile <? 0 then Ret (f, PyRaise ValueError) else
    if (Nfile =? 0) && negb (size =? 0) then Ret (f, PyRaise ValueError) else
    '(f', ob) <- big_file_create_block e f bf blockname (Some d) items Nfile (np_split size Nfile) ;;
    Ret (f', match ob with Some b => PyRet b | None => PyRaise BigError end).

  (* numpy.array(array[i:j]): a copy in fresh memory of rows of the given
     elements, in C order *)
  Definition np_copy (d : bytes) (items : Z) (rows : list bytes) : out (array * mem) :=
    let '(p, m) := alloc (zlen (concat rows)) in
    let dims := if items =? 1 then [zlen rows] else [zlen rows; items] in
    a <- big_array_init (e_me e) p d dims (Some (fst (contig_strides (itemsize (e_me e) (dtype_normalize (e_me e) d)) dims))) ;;
    Ret (a, fun x => if (p <=? x) && (x <? p + zlen (concat rows)) then nth_error (concat rows) (Z.to_nat (x - p)) else m x).

  (* __init__.py:187-189: for i in range(0, len(array), itemlimit) *)
  Fixpoint py_write_chunks (f : fs) (b : block) (d : bytes) (items : Z) (rows : list bytes) (i limit : Z) (fuel : nat)
      : out (pyres unit * (fs * block)) :=
    match fuel with
    | O => Diverge
    | S k =>
        if zlen rows <=? i then Ret (PyRet tt, (f, b)) else
        '(a, m) <- np_copy d items (firstn (Z.to_nat limit) (skipn (Z.to_nat i) rows)) ;;
        '(r, (f, b)) <- py_write f b i a m ;;
        match r with
        | PyRaise x => Ret (PyRaise x, (f, b))
        | PyRet _ => py_write_chunks f b d items rows (i + limit) limit k
        end
    end.

  (* pyxbigfile.pyx:318-319, __init__.py:58-59: __exit__ and flush; an
     exception of the flush replaces one of the body *)
  Definition py_exit (f : fs) (b : block) (r : pyres unit) : out (pyres unit * (fs * block)) :=
    '(rc, f', b') <- big_block_flush e f b ;;
    Ret (if negb (rc =? 0) then PyRaise BigError else r, (f', b')).

  (* __init__.py:151-191 File.create_from_array. The array: rows of items
     elements of type d; w is not zero. range() raises ValueError if its step
     is zero and is empty if it is negative. The list of blocks that File.create keeps is not modelled; nor is the close
     of the block when it is garbage collected, which finds nothing to flush. *)
  Definition py_itemlimit (memorylimit w : Z) : Z := memorylimit / w / 1024 * 1024.
  Definition py_create_from_array (f : fs) (bf blockname d : bytes) (items : Z) (rows : list bytes) (Nfile : option Z) (memorylimit : Z)
      : out (fs * pyres block) :=
    let size := zlen rows in
    let sizeperfile := 32 * 1024 * 1024 in
    let Nfile := match Nfile with Some n => n | None => (size + sizeperfile - 1) / sizeperfile end in
    let w := itemsize (e_me e) (dtype_normalize (e_me e) d) * items in
    let itemlimit := py_itemlimit memorylimit w in
    '(f, r) <- py_create f bf blockname d items size Nfile ;;
    match r with
    | PyRaise x => Ret (f, PyRaise x)
    | PyRet b =>
        '(r, (f, b)) <- (if itemlimit =? 0 then Ret (PyRaise ValueError, (f, b))
                         else if itemlimit <? 0 then Ret (PyRet tt, (f, b))
                         else py_write_chunks f b d items rows 0 itemlimit (S (length rows))) ;;
        '(r, (f, _)) <- py_exit f b r ;;
        match r with
        | PyRaise x => Ret (f, PyRaise x)
        | PyRet _ =>
            ob <- big_file_open_block e f bf blockname ;;
            Ret (f, match ob with Some b => PyRet b | None => PyRaise BigError end)
        end
    end.

  (* pyxbigfile.pyx:430-463 ColumnLowLevelAPI.append *)
  Definition py_append (f : fs) (b : block) (a : array) (m : mem) (Nfile : Z) : out (pyres unit * (fs * block)) :=
    let size := match a_dims a with n :: _ => n | [] => 0 end in
    if Nfile <? 0 then Ret (PyRaise ValueError, (f, b)) else
    if (Nfile =? 0) && negb (size =? 0) then Ret (PyRaise ValueError, (f, b)) else
    let tail := b_size b in
    '(rc, f, b) <- big_block_grow f b Nfile (np_split size Nfile) ;;
    if negb (rc =? 0) then Ret (PyRaise BigError, (f, b)) else
    '(rc, f, b) <- big_block_flush e f b ;;
    if negb (rc =? 0) then Ret (PyRaise BigError, (f, b)) else
    py_write f b tail a m.
End Column.
