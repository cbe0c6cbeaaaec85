(* The Python class Dataset: several columns of a file as an array of records. *)
From Coq.Strings Require Import Byte String.
From Coq Require Import List ZArith Bool.
From Verif Require Import Base Dtype Cast Array FS Fmt Attr Block File Record Split Py.
Import ListNotations.
Open Scope Z_scope.
Local Open Scope out_scope.

(* numpy.dtype(d).str for the type d of a header: strings and types of one
   byte are spelled with '|', whatever their byte order was. None: numpy knows
   no such type (TypeError). Simplification: widths with leading zeros are
   taken to be unknown, except those of strings, which are kept as they are. *)
Definition np_width (k : byte) : list bytes :=
  if Byte.eqb k "b" then [lit "1"]
  else if Byte.eqb k "i" || Byte.eqb k "u" then [lit "1"; lit "2"; lit "4"; lit "8"]
  else if Byte.eqb k "f" then [lit "2"; lit "4"; lit "8"; lit "16"]
  else if Byte.eqb k "c" then [lit "8"; lit "16"; lit "32"]
  else [].
Definition np_str (d : bytes) : option bytes :=
  match d with
  | c :: k :: w =>
      if Byte.eqb k "S" then Some ("|"%byte :: k :: w)
      else if existsb (bytes_eqb w) (np_width k) then Some ((if bytes_eqb w (lit "1") then "|"%byte else c) :: k :: w)
      else None
  | _ => None
  end.

(* A Dataset: its record type and its size. The file is a parameter of the
   methods, the numpy dtype is the record type (pyxbigfile.pyx:619-631). *)
Record dset : Type := mkDs { ds_rt : rtype; ds_size : Z }.
(* A one-dimensional numpy array: the address of its first record, the
   distance between records, their number, and whether its dtype is that of
   the Dataset. *)
Record recarr : Type := mkRA { ra_data : Z; ra_stride : Z; ra_len : Z; ra_same : bool }.
(* What indexing gives: an array of n records at p, one after the other, or a
   single record. *)
Inductive dsval : Type := Recs (p n : Z) | Rec (p : Z).

Section Data.
  Variables (e : env) (bf : bytes).
  Variable alloc : Z -> Z * mem.

  (* __init__.py:346-355: the columns are opened, their sizes compared *)
  Fixpoint open_columns (f : fs) (names : list bytes) (size : option Z) (acc : list (bytes * bytes * Z))
      : out (pyres (option Z * list (bytes * bytes * Z))) :=
    match names with
    | [] => Ret (PyRet (size, rev acc))
    | nm :: r =>
        ob <- big_file_open_block e f bf nm ;;
        match ob with
        | None => Ret (PyRaise BigError)
        | Some b =>
            if match size with Some s => negb (b_size b =? s) | None => false end then Ret (PyRaise BigError)
            else match np_str (b_dtype b) with
                 | None => Ret (PyRaise TypeError)
                 | Some d => open_columns f r (Some (match size with Some s => s | None => b_size b end)) ((nm, d, b_nmemb b) :: acc)
                 end
        end
    end.

  Fixpoint has_dup (l : list bytes) : bool :=
    match l with [] => false | x :: r => existsb (bytes_eqb x) r || has_dup r end.

  (* pyxbigfile.pyx:600-611: big_record_type_set for every field *)
  Fixpoint set_fields (rt : rtype) (i : Z) (cols : list (bytes * bytes * Z)) : out rtype :=
    match cols with
    | [] => Ret rt
    | (nm, d, n) :: r => rt' <- rtype_set rt i nm d n ;; set_fields rt' (i + 1) r
    end.

  (* __init__.py:334-358 Dataset.__init__ with a list of names;
     pyxbigfile.pyx:595-631. numpy.dtype raises ValueError if a name occurs
     twice; without columns the size is None (TypeError). That numpy renames a
     field with the empty name is not modelled. *)
  Definition py_dataset (f : fs) (names : list bytes) : out (pyres dset) :=
    py_bind (open_columns f names None []) (fun '(size, cols) =>
      if has_dup names then Ret (PyRaise ValueError) else
      match size with
      | None => Ret (PyRaise TypeError)
      | Some size =>
          rt <- set_fields (rtype_clear (mkRtype [] 0)) 0 cols ;;
          rt <- rtype_complete (e_me e) rt ;;
          Ret (PyRet (mkDs rt size))
      end).

  (* __init__.py:360-368 _getslice, pyxbigfile.pyx:633-640 read. *)
  Definition ds_getslice (f : fs) (ds : dset) (start stop step : option Z) : out (pyres (Z * Z * mem) * fs) :=
    match slice_indices start stop step (ds_size ds) with
    | None => Ret (PyRaise ValueError, f)
    | Some (lo, hi, step) =>
        if negb (step =? 1) then Ret (PyRaise AssertionError, f) else
        let n := hi - lo in
        if n <? 0 then Ret (PyRaise ValueError, f) else
        let '(p, m) := alloc (n * rt_itemsize (ds_rt ds)) in
        '(rc, (f, m)) <- read_records e f bf (ds_rt ds) lo n p m ;;
        Ret (if rc =? 0 then PyRet (p, n, m) else PyRaise BigError, f)
    end.

  (* __init__.py:28-45 _enhance_slicefunc; __init__.py:383-403 __getitem__ of
     a slice, an ellipsis or an integer. Selection by column names, which
     gives file[name] or another Dataset, is not modelled. *)
  Definition ds_getitem (f : fs) (ds : dset) (i : pyindex) : out (pyres (dsval * mem) * fs) :=
    match i with
    | ISlice start stop step =>
        '(r, f) <- ds_getslice f ds start stop step ;;
        Ret (match r with PyRet (p, n, m) => PyRet (Recs p n, m) | PyRaise x => PyRaise x end, f)
    | IEllipsis =>
        '(r, f) <- ds_getslice f ds None None None ;;
        Ret (match r with PyRet (p, n, m) => PyRet (Recs p n, m) | PyRaise x => PyRaise x end, f)
    | IInt i =>
        '(r, f) <- ds_getslice f ds (Some i) (Some (i + 1)) None ;;
        Ret (match r with
             | PyRet (p, n, m) => if 0 <? n then PyRet (Rec p, m) else PyRaise IndexError
             | PyRaise x => PyRaise x
             end, f)
    end.

  (* pyxbigfile.pyx:668-674 write: buf.data and the number of records are
     passed on, the distance between the records is not. *)
  Definition ds_write (f : fs) (ds : dset) (start : Z) (v : recarr) (m : mem) : out (pyres unit * (fs * mem)) :=
    if negb (ra_same v) then Ret (PyRaise AssertionError, (f, m)) else
    '(rc, (f, m)) <- write_records e f bf (ds_rt ds) start (ra_len v) (ra_data v) m ;;
    Ret (if rc =? 0 then PyRet tt else PyRaise BigError, (f, m)).

  (* __init__.py:370-380 __setitem__ *)
  Definition ds_setslice (f : fs) (ds : dset) (start stop step : option Z) (v : recarr) (m : mem) : out (pyres unit * (fs * mem)) :=
    match slice_indices start stop step (ds_size ds) with
    | None => Ret (PyRaise ValueError, (f, m))
    | Some (lo, hi, step) =>
        if negb (step =? 1) then Ret (PyRaise AssertionError, (f, m)) else
        if negb (ra_same v) then Ret (PyRaise AssertionError, (f, m)) else
        if negb (ra_len v =? hi - lo) then Ret (PyRaise AssertionError, (f, m)) else
        ds_write f ds lo v m
    end.
  Definition ds_setitem (f : fs) (ds : dset) (i : pyindex) (v : recarr) (m : mem) : out (pyres unit * (fs * mem)) :=
    match i with
    | ISlice start stop step => ds_setslice f ds start stop step v m
    | IEllipsis => ds_setslice f ds None None None v m
    | IInt i => ds_setslice f ds (Some i) (Some (i + 1)) None v m
    end.

  (* pyxbigfile.pyx:642-659 _create_records with mode "a+",
     pyxbigfile.pyx:661-666 append *)
  Definition ds_append (f : fs) (ds : dset) (v : recarr) (m : mem) (Nfile : Z) : out (pyres unit * (fs * dset * mem)) :=
    if negb (ra_same v) then Ret (PyRaise AssertionError, (f, ds, m)) else
    let tail := ds_size ds in
    if Nfile <? 0 then Ret (PyRaise ValueError, (f, ds, m)) else
    if (Nfile =? 0) && negb (ra_len v =? 0) then Ret (PyRaise ValueError, (f, ds, m)) else
    '(rc, f) <- create_records e f bf (ds_rt ds) false Nfile (np_split (ra_len v) Nfile) ;;
    if negb (rc =? 0) then Ret (PyRaise BigError, (f, ds, m)) else
    let ds := mkDs (ds_rt ds) (ds_size ds + ra_len v) in
    '(r, (f, m)) <- ds_write f ds tail v m ;;
    Ret (r, (f, ds, m)).
End Data.
