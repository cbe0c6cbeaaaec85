(* A Dataset as a list of records. *)
From Coq.Strings Require Import Byte String.
From Coq Require Import List ZArith Bool.
From Verif Require Import Base Dtype Cast Array FS Fmt Attr Block File Record Spec AttrSpec OpenSpec HistSpec FileSpec RecSpec Py PySpec PyData.
Import ListNotations.
Open Scope Z_scope.
Local Open Scope out_scope.

(* What a Python program does with a Dataset ds: x = ds[i], ds[i] = v,
   ds.append(v, Nfile). um is the memory v lies in. *)
Inductive dsop : Type :=
| DGet (i : pyindex)
| DSet (i : pyindex) (v : recarr) (um : mem)
| DAppend (v : recarr) (um : mem) (Nfile : Z).
Inductive dsres : Type :=
| GotVal (r : pyres (dsval * mem))
| Done (r : pyres unit) (um : mem).

Definition dstep (e : env) (bf : bytes) (alloc : Z -> Z * mem) (st : fs * dset) (op : dsop) : out (dsres * (fs * dset)) :=
  let '(f, ds) := st in
  match op with
  | DGet i => '(r, f) <- ds_getitem e bf alloc f ds i ;; Ret (GotVal r, (f, ds))
  | DSet i v um => '(r, (f, um)) <- ds_setitem e bf f ds i v um ;; Ret (Done r um, (f, ds))
  | DAppend v um N => '(r, (f, ds, um)) <- ds_append e bf f ds v um N ;; Ret (Done r um, (f, ds))
  end.
Fixpoint drun (e : env) (bf : bytes) (alloc : Z -> Z * mem) (st : fs * dset) (os : list dsop) : out (list dsres * (fs * dset)) :=
  match os with
  | [] => Ret ([], st)
  | o :: r =>
      '(x, st) <- dstep e bf alloc st o ;;
      '(xs, st) <- drun e bf alloc st r ;;
      Ret (x :: xs, st)
  end.

(* The records of the numpy array v. *)
Definition array_recs (rt : rtype) (um : mem) (v : recarr) (recs : list bytes) : Prop :=
  zlen recs = ra_len v /\
  forall j x, nth_error recs j = Some x ->
    load um (ra_data v + Z.of_nat j * ra_stride v) (Z.to_nat (rt_itemsize rt)) = Some x.

(* The bounds an index stands for. *)
Definition span (i : pyindex) (n : Z) : Z * Z :=
  match i with
  | ISlice start stop _ => (bound n 0 start, bound n n stop)
  | IEllipsis => (0, n)
  | IInt i => (bound n 0 (Some i), bound n n (Some (i + 1)))
  end.
Definition step_of (i : pyindex) : Z := match i with ISlice _ _ (Some s) => s | _ => 1 end.

Section Spec.
  Variable me : endian.
  Variable rt : rtype.

  (* The list after ds[lo:hi] = recs. *)
  Definition put (L : list bytes) (lo : Z) (recs : list bytes) : list bytes :=
    firstn (Z.to_nat lo) L ++ recs ++ skipn (Z.to_nat lo + length recs) L.

  (* An answer, and the list afterwards. The list semantics of Python, with
     these exceptions: other steps than 1 are refused, and so is a slice whose
     stop lies before its start (of a list: an empty list), hence also ds[-1]. *)
  Inductive dspec (L : list bytes) : dsop -> dsres -> list bytes -> Prop :=
  | d_step i : step_of i <> 1 ->
      dspec L (DGet i) (GotVal (PyRaise (if step_of i =? 0 then ValueError else AssertionError))) L
  | d_back i lo hi : step_of i = 1 -> span i (zlen L) = (lo, hi) -> hi < lo ->
      dspec L (DGet i) (GotVal (PyRaise ValueError)) L
  | d_slice start stop step p m : step_of (ISlice start stop step) = 1 -> bound (zlen L) 0 start <= bound (zlen L) (zlen L) stop ->
      recs_at rt m p (zlen (list_slice L start stop)) (list_slice L start stop) ->
      dspec L (DGet (ISlice start stop step)) (GotVal (PyRet (Recs p (zlen (list_slice L start stop)), m))) L
  | d_all p m : recs_at rt m p (zlen L) L -> dspec L (DGet IEllipsis) (GotVal (PyRet (Recs p (zlen L), m))) L
  | d_item i v p m : i <> -1 -> list_item L i = Some v -> load m p (Z.to_nat (rt_itemsize rt)) = Some v ->
      dspec L (DGet (IInt i)) (GotVal (PyRet (Rec p, m))) L
  | d_index i : i <> -1 \/ zlen L <= 1 -> i = -1 \/ list_item L i = None -> dspec L (DGet (IInt i)) (GotVal (PyRaise IndexError)) L
  | d_set i v um um' recs lo hi : step_of i = 1 -> ra_same v = true -> span i (zlen L) = (lo, hi) -> array_recs rt um v recs -> zlen recs = hi - lo ->
      left_by_write me rt um um' (ra_data v) (ra_len v) ->
      dspec L (DSet i v um) (Done (PyRet tt) um') (put L lo recs)
  | d_set_step i v um : step_of i <> 1 ->
      dspec L (DSet i v um) (Done (PyRaise (if step_of i =? 0 then ValueError else AssertionError)) um) L
  | d_set_len i v um lo hi : step_of i = 1 -> span i (zlen L) = (lo, hi) -> ra_len v <> hi - lo ->
      dspec L (DSet i v um) (Done (PyRaise AssertionError) um) L
  | d_set_type i v um : step_of i = 1 -> ra_same v = false -> dspec L (DSet i v um) (Done (PyRaise AssertionError) um) L
  | d_append v um um' N recs : ra_same v = true -> 0 < N -> array_recs rt um v recs -> left_by_write me rt um um' (ra_data v) (ra_len v) ->
      dspec L (DAppend v um N) (Done (PyRet tt) um') (L ++ recs)
  | d_append_files v um N : ra_same v = true -> N <= 0 -> dspec L (DAppend v um N) (Done (PyRaise ValueError) um) L
  | d_append_type v um N : ra_same v = false -> dspec L (DAppend v um N) (Done (PyRaise AssertionError) um) L.

  Inductive dspecs : list bytes -> list dsop -> list dsres -> list bytes -> Prop :=
  | dss_nil L : dspecs L [] [] L
  | dss_cons L o x L1 os xs L2 : dspec L o x L1 -> dspecs L1 os xs L2 -> dspecs L (o :: os) (x :: xs) L2.

  (* The arrays given: at least one record, all in memory, one after the other
     (C-contiguous). *)
  Definition value_ok (v : recarr) (um : mem) : Prop :=
    0 < ra_len v /\ ra_stride v = rt_itemsize rt /\ exists recs, array_recs rt um v recs.
  (* Numbers of elements and files that do not overflow, for a Dataset of size
     records in nf files per column. *)
  Definition size_ok (n : Z) : Prop := n < 2 ^ 63 /\ forall fd, In fd (rt_fields rt) -> n * rf_nmemb fd < 2 ^ 63.
  Fixpoint dops_ok (size nf : Z) (os : list dsop) : Prop :=
    match os with
    | [] => True
    | DGet _ :: r => dops_ok size nf r
    | DSet _ v um :: r => value_ok v um /\ dops_ok size nf r
    | DAppend v um N :: r =>
        value_ok v um /\
        (if ra_same v && (0 <? N)
         then ra_len v * N < 2 ^ 63 /\ nf + N <= 2 ^ 24 /\ size_ok (size + ra_len v) /\ dops_ok (size + ra_len v) (nf + N) r
         else dops_ok size nf r)
    end.
End Spec.

(* Every record of the table has been written: L is the list of them. *)
Definition written (T : table) (L : list bytes) : Prop :=
  zlen L = t_size T /\ forall j v, nth_error L j = Some v -> t_row T (Z.of_nat j) = Some v.

(* A type numpy knows and spells the way the block is stored: not a string or
   a one-byte type of the other byte order. *)
Definition numpy_type (me : endian) (d : bytes) : Prop :=
  exists c k w, dtype_normalize me d = c :: k :: w /\
    (k = "S"%byte \/ In w (np_width k)) /\
    (c = machine_char me \/ (k <> "S"%byte /\ w <> lit "1")).
(* The same record type up to the spelling of element types. *)
Definition same_type (me : endian) (rt rt' : rtype) : Prop :=
  rt_itemsize rt' = rt_itemsize rt /\ length (rt_fields rt') = length (rt_fields rt) /\
  forall k fd, nth_error (rt_fields rt) k = Some fd -> exists fd', nth_error (rt_fields rt') k = Some fd' /\
    rf_name fd' = rf_name fd /\ rf_nmemb fd' = rf_nmemb fd /\ rf_offset fd' = rf_offset fd /\ rf_elsize fd' = rf_elsize fd /\
    dtype_normalize me (rf_dtype fd') = dtype_normalize me (rf_dtype fd).
Definition field_names (rt : rtype) : list bytes :=
  map (fun fd => match rf_name fd with Some nm => nm | None => [] end) (rt_fields rt).
