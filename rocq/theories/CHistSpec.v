(* Histories of collective operations on one block, and the table they should
   implement. *)
From Coq.Strings Require Import Byte String.
From Coq Require Import List ZArith Bool.
From Verif Require Import Base Dtype Cast Array FS Fmt Attr Block Spec AttrSpec OpenSpec HistSpec Par Mpi MpiSpec.
Import ListNotations.
Open Scope Z_scope.
Local Open Scope prog_scope.

(* Rank i takes part with the array a i in its memory um i. *)
Inductive cop : Type :=
| CWrite (o conc : Z) (a : nat -> array) (um : nat -> mem)   (* seek to row o, write *)
| CRead (o conc : Z) (a : nat -> array) (um : nat -> mem)    (* seek to row o, read *)
| CGrow (gs : list Z)
| CFlush
| CReopen.                                                   (* close, then open *)

(* bigfile-mpi.c:309-315 big_block_mpi_close *)
Definition mpi_close (junk : nat -> nat -> byte) (e : env) (c : comm) (me : nat) (nbase : Z) (b : block) : M Z :=
  '(rt, _) <- mpi_flush junk e c me nbase b ;; mret rt.

Section Code.
  (* ranks, aggregation threshold, contents and places of fresh memory at
     every call, environments *)
  Variables (N : nat) (thr : Z) (junk : nat -> nat -> nat -> nat -> byte) (nbase : nat -> nat -> Z) (e : nat -> env).

  (* The code, at rank i; k counts the calls. *)
  Definition cstep (k i : nat) (b : block) (op : cop) : M (hres * block) :=
    match op with
    | CWrite o conc a um =>
        '(rc, p) <- local (big_block_seek b (mkPtr 0 0 0) o) ;;
        if negb (rc =? 0) then mret ((rc, Some (um i)), b) else
        '(rc, b', _, um') <- mpi_write thr (e i) (world N) i b p (a i) (um i) conc ;;
        mret ((rc, Some um'), b')
    | CRead o conc a um =>
        '(rc, p) <- local (big_block_seek b (mkPtr 0 0 0) o) ;;
        if negb (rc =? 0) then mret ((rc, Some (um i)), b) else
        '(rc, b', _, um') <- mpi_read thr (e i) (world N) i b p (a i) (um i) conc ;;
        mret ((rc, Some um'), b')
    | CGrow gs =>
        '(rc, b') <- mpi_grow (junk k i) (e i) (world N) i (nbase k i) b (zlen gs) gs ;; mret ((rc, None), b')
    | CFlush =>
        '(rc, b') <- mpi_flush (junk k i) (e i) (world N) i (nbase k i) b ;; mret ((rc, None), b')
    | CReopen =>
        rc <- mpi_close (junk k i) (e i) (world N) i (nbase k i) b ;;
        '(rc2, b') <- mpi_open (junk (S k) i) (e i) (world N) i (nbase (S k) i) (b_base b) ;;
        if negb (rc2 =? 0) then mret ((-1, None), b) else mret ((rc, None), b')
    end.
  Fixpoint crun (k i : nat) (b : block) (os : list cop) : M (list hres * block) :=
    match os with
    | [] => mret ([], b)
    | o :: r =>
        '(x, b1) <- cstep k i b o ;;
        '(xs, b2) <- crun (k + 2) i b1 r ;;
        mret (x :: xs, b2)
    end.
  (* Create a block and run a history on it. *)
  Definition ccreate_run (i : nat) (base d : bytes) (nmemb : Z) (sizes : list Z) (os : list cop) : M (Z * (list hres * block)) :=
    '(rc, b) <- mpi_create (junk 0%nat i) (e i) (world N) i (nbase 0%nat i) base (Some d) nmemb (zlen sizes) sizes ;;
    if negb (rc =? 0) then mret (rc, ([], b)) else
    r <- crun 1 i b os ;;
    mret (rc, r).
  (* Open a block and run a history on it. *)
  Definition copen_run (i : nat) (base : bytes) (os : list cop) : M (Z * (list hres * block)) :=
    '(rc, b) <- mpi_open (junk 0%nat i) (e i) (world N) i (nbase 0%nat i) base ;;
    if negb (rc =? 0) then mret (rc, ([], b)) else
    r <- crun 1 i b os ;;
    mret (rc, r).
End Code.

(* ------------------------------------------------------------------ *)
(* The specification. *)

(* The rows an array takes part with. *)
Definition rows_in (a : array) : Z := match znth (a_dims a) 0 with Some n => n | None => 0 end.

Section Table.
  (* ranks, machine, element type and elements per row of the block *)
  Variables (N : nat) (me : endian) (dt : bytes) (nmemb : Z).
  Let w := itemsize me dt * nmemb.
  Definition rank_rows (a : nat -> array) (i : nat) : Z := rows_in (a i).

  (* vs i are the elements of the array of rank i, outs i their values in the
     block's type *)
  Definition sources (a : nat -> array) (um : nat -> mem) (vs outs : nat -> list bytes) : Prop :=
    forall i, (i < N)%nat ->
      zlen (vs i) = rank_rows a i * nmemb /\
      holds (um i) (elem_addr (a i)) (itemsize me (a_dtype (a i))) 0 (vs i) /\
      Forall2 (converts me (a_dtype (a i)) dt) (vs i) (outs i).

  (* x i is what rank i gets. *)
  Inductive cspec (t : table) : cop -> (nat -> hres) -> table -> Prop :=
  | cs_write o conc a um x um' vs outs : sources a um vs outs ->
      (forall i, (i < N)%nat -> x i = (0, Some (um' i)) /\
         if dt_native me (a_dtype (a i)) then um' i = um i
         else wrote (um i) (um' i) (elem_addr (a i)) (itemsize me (a_dtype (a i))) 0 (map (@rev byte) (vs i))) ->
      (* the rows of the ranks, one rank after the other *)
      cspec t (CWrite o conc a um) x (with_rows t o (flat_map (fun i => rows_of nmemb (rank_rows a i) (outs i)) (seq 0 N)))
  | cs_read o conc a um x rc um' :
      (* all get the same code *)
      (forall i, (i < N)%nat -> x i = (rc, Some (um' i))) -> rc = 0 \/ rc = -1 ->
      (* past the end *)
      (t_size t < o + total N (rank_rows a) -> rc = -1) ->
      (* some row has never been written *)
      (forall r, o <= r < o + total N (rank_rows a) -> absent t r -> rc = -1) ->
      (* every row can be shown: the arrays hold the converted elements and
         nothing else changes *)
      (forall es outs : nat -> list bytes, o + total N (rank_rows a) <= t_size t ->
         (forall i, (i < N)%nat ->
            zlen (es i) = rank_rows a i * nmemb /\ Forall (fun v => length v = Z.to_nat (itemsize me dt)) (es i) /\
            (forall j v, nth_error (rows_of nmemb (rank_rows a i) (es i)) j = Some v ->
               shows w t (o + before (rank_rows a) i + Z.of_nat j) v) /\
            Forall2 (converts me dt (a_dtype (a i))) (es i) (outs i)) ->
         rc = 0 /\ forall i, (i < N)%nat -> wrote (um i) (um' i) (elem_addr (a i)) (itemsize me (a_dtype (a i))) 0 (outs i)) ->
      (* in any case only the arrays are written *)
      (forall i x, (i < N)%nat -> ~ in_elems (elem_addr (a i)) (itemsize me (a_dtype (a i))) 0 (rank_rows a i * nmemb) x -> um' i x = um i x) ->
      cspec t (CRead o conc a um) x t
  | cs_grow gs x : (forall i, (i < N)%nat -> x i = (0, None)) ->
      cspec t (CGrow gs) x (mkTab (t_sizes t ++ gs) (t_row t) (t_sum t))
  | cs_flush x : (forall i, (i < N)%nat -> x i = (0, None)) -> cspec t CFlush x t
  | cs_reopen x : (forall i, (i < N)%nat -> x i = (0, None)) -> cspec t CReopen x t.

  Inductive cspecs : table -> list cop -> list (nat -> hres) -> table -> Prop :=
  | css_nil t : cspecs t [] [] t
  | css_cons t o x t1 os xs t2 : cspec t o x t1 -> cspecs t1 os xs t2 -> cspecs t (o :: os) (x :: xs) t2.

  (* Legal operations. Writes stay inside the block (see C47); reads must use
     a conversion that is defined on every element. *)
  Definition cop_ok (thr : Z) (sizes : list Z) (op : cop) : Prop :=
    match op with
    | CWrite o conc a um =>
        0 <= o /\ o + total N (rank_rows a) <= zsum sizes /\ segments_small N thr (rank_rows a) /\
        (exists vs outs, sources a um vs outs /\ forall i, (i < N)%nat -> rank_source me (a i) (um i) (rank_rows a i) nmemb (vs i)) /\
        forall i, (i < N)%nat -> 0 <= rank_rows a i /\ convertible me (a_dtype (a i)) dt
    | CRead o conc a um =>
        0 <= o < 2 ^ 63 /\ o + total N (rank_rows a) < 2 ^ 63 /\ segments_small N thr (rank_rows a) /\
        forall i, (i < N)%nat -> 0 <= rank_rows a i /\ rank_target me (a i) (um i) (rank_rows a i) nmemb /\
          convertible me dt (a_dtype (a i)) /\
          forall v, length v = Z.to_nat (itemsize me dt) -> exists r, converts me dt (a_dtype (a i)) v r
    | CGrow gs => layout_ok (sizes ++ gs) /\ zlen (sizes ++ gs) <= 2 ^ 24
    | CFlush | CReopen => True
    end.
  Definition csizes_after (sizes : list Z) (op : cop) : list Z :=
    match op with CGrow gs => sizes ++ gs | _ => sizes end.
  Fixpoint chistory_ok (thr : Z) (sizes : list Z) (os : list cop) : Prop :=
    match os with
    | [] => True
    | o :: r => cop_ok thr sizes o /\ chistory_ok thr (csizes_after sizes o) r
    end.

  (* No write of the history touches a row that was written before. *)
  Fixpoint cwritten_once (t : table) (os : list cop) : Prop :=
    match os with
    | [] => True
    | o :: r =>
        match o with
        | CWrite p _ a _ => forall q, p <= q < p + total N (rank_rows a) -> t_row t q = None
        | _ => True
        end /\ forall x t', cspec t o x t' -> cwritten_once t' r
    end.
End Table.

(* The same physical files and the same rows. *)
Definition same_rows (t t2 : table) : Prop := t_sizes t2 = t_sizes t /\ forall r, t_row t2 r = t_row t r.
(* The block has no attributes. *)
Definition no_attributes (f : fs) (base : bytes) : Prop :=
  fs_get f (attr1_path base) = None /\ (fs_get f (attr2_path base) = None \/ fs_get f (attr2_path base) = Some (File [])).
(* Reads and writes only. *)
Definition transfer (op : cop) : Prop := match op with CWrite _ _ _ _ | CRead _ _ _ _ => True | _ => False end.
(* The handles of all ranks describe the table. *)
Definition handles (N : nat) (base dt : bytes) (nmemb : Z) (t : table) (b : nat -> block) : Prop :=
  forall i, (i < N)%nat -> b_base (b i) = base /\ b_dtype (b i) = dt /\ b_nmemb (b i) = nmemb /\
    b_size (b i) = t_size t /\ has_layout (b i) (t_sizes t).
