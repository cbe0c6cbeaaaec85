(* The collective part of the Python layer: ColumnMPI and FileMPI. *)
From Coq.Strings Require Import Byte String.
From Coq Require Import List ZArith Bool.
From Verif Require Import Base Dtype Cast Array FS Fmt Attr Block File Split Pack Par Mpi Py.
Import ListNotations.
Open Scope Z_scope.
Local Open Scope prog_scope.

(* A call that may raise, followed by the rest of the function. *)
Definition pm_bind {A B} (m : M (pyres A)) (h : A -> M (pyres B)) : M (pyres B) :=
  r <- m ;; match r with PyRet a => h a | PyRaise x => mret (PyRaise x) end.

(* __init__.py:402-406 check_unique of strings. comm.allgather sends pickled
   objects; here a string travels as a number, different ones for different
   strings. *)
Fixpoint name_code (l : bytes) : Z :=
  match l with
  | [] => 0
  | c :: r => Z.of_N (Byte.to_N c) + 1 + 257 * name_code r
  end.
Definition check_unique (c : comm) (name : bytes) : M bool :=
  l <- allgather c CLong (name_code name) ;;
  mret (forallb (Z.eqb (name_code name)) l).

(* any(comm.allgather(flag)) *)
Definition anywhere (c : comm) (flag : bool) : M bool :=
  l <- allgather c CInt (if flag then 1 else 0) ;;
  mret (existsb (fun z => negb (z =? 0)) l).

(* __init__.py:213-226 ColumnMPI.open; pyxbigfile.pyx:349-356
   ColumnLowLevelAPI.open. BigFileError is Error (__init__.py:409). A rank
   whose own open fails goes on with that exception when the finally clause is
   over; line 225 names a class that does not exist. *)
Definition pm_open (e : env) (c : comm) (bf blockname : bytes) : M (pyres block) :=
  ok <- check_unique c blockname ;;
  if negb ok then mret (PyRaise BigError) else
  _ <- barrier c ;;
  v <- mio (op_open e (path_join bf blockname)) ;;
  let own := match v with VCode _ b => Some b | _ => None end in
  bad <- anywhere c (match own with Some _ => false | None => true end) ;;
  match own with
  | None => mret (PyRaise BigError)
  | Some b => mret (if bad then PyRaise NameError else PyRet b)
  end.

(* pyxbigfile.pyx:358-404 ColumnLowLevelAPI.create with a dtype, and :566-571
   _close, at one rank: as py_create, the call of the library being one step *)
Definition op_create_block (e : env) (bf blockname d : bytes) (items Nfile : Z) (sizes : list Z) : fs -> out (val * fs) :=
  pack_op (fun f => big_file_create_block e f bf blockname (Some d) items Nfile sizes).
Definition pm_create_root (e : env) (bf blockname d : bytes) (items size Nfile : Z) : M (pyres unit) :=
  if Nfile <? 0 then mret (PyRaise ValueError) else
  if (Nfile =? 0) && negb (size =? 0) then mret (PyRaise ValueError) else
  v <- mio (op_create_block e bf blockname d items Nfile (np_split size Nfile)) ;;
  match v with
  | VCode _ b =>
      v <- mio (op_flush e b) ;;
      mret (match v with VCode rc _ => if negb (rc =? 0) then PyRaise BigError else PyRet tt | _ => PyRaise BigError end)
  | _ => mret (PyRaise BigError)
  end.
(* __init__.py:200-207 ColumnMPI.create. An exception at rank 0 leaves the
   function there and then; the other ranks go on. *)
Definition pm_create_column (e : env) (c : comm) (me : nat) (bf blockname d : bytes) (items size Nfile : Z) : M (pyres block) :=
  ok <- check_unique c blockname ;;
  if negb ok then mret (PyRaise BigError) else
  pm_bind (if (rank_in c me =? 0)%nat then pm_create_root e bf blockname d items size Nfile else mret (PyRet tt)) (fun _ =>
  pm_open e c bf blockname).
(* __init__.py:258-264, 274-278 FileMPI.refresh and create. The list of blocks
   that rank 0 sends is left out. *)
Definition pm_create (e : env) (c : comm) (me : nat) (bf blockname d : bytes) (items size Nfile : Z) : M (pyres block) :=
  pm_bind (pm_create_column e c me bf blockname d items size Nfile) (fun b =>
  _ <- mcoll c (KBcast 0 0 VNone) ;;
  mret (PyRet b)).

(* pyxbigfile.pyx:535-564 _MPI_flush, :513-533 _MPI_broadcast. A pickled object
   is sent by comm.bcast as its length and its bytes. *)
Definition pm_flush (junk : nat -> nat -> byte) (e : env) (c : comm) (me : nat) (nbase : Z) (b : block) : M (pyres block) :=
  let n := Z.to_nat (b_Nfile b) in
  dirty <- anywhere c (b_dirty b) ;;
  b <- (if 0 <? b_Nfile b then
          v <- mcoll c (KAllreduce CUint RSum (firstn n (b_fchecksum b))) ;;
          sums <- many v ;;
          mret (set_checksums b (sums ++ skipn n (b_fchecksum b)))
        else mret b) ;;
  '(rt, b) <- (if (rank_in c me =? 0)%nat then
                 v <- mio (op_flush e (set_bdirty b dirty)) ;;
                 mret (match v with VCode rc b => (rc, b) | _ => (-1, b) end)
               else mret (0, b)) ;;
  b <- broadcast junk e c me 0 nbase b ;;
  bad <- anywhere c (negb (rt =? 0)) ;;
  if (bad : bool) then mret (PyRaise BigError) else
  _ <- barrier c ;;
  mret (PyRet b).

(* pyxbigfile.pyx:406-428 ColumnLowLevelAPI.write, with each access to a file
   a separate step *)
Definition pm_write (e : env) (b : block) (start : Z) (a : array) (m : mem) : M (pyres unit * block) :=
  '(rc, p) <- local (big_block_seek b (mkPtr 0 0 0) start) ;;
  if negb (rc =? 0) then mret (PyRaise BigError, b) else
  '(rc, b', _, _) <- block_write e b p a m ;;
  mret (if negb (rc =? 0) then PyRaise BigError else PyRet tt, b').

(* __init__.py:317-318: for i in range(0, len(array), itemlimit) *)
Fixpoint pm_chunks (e : env) (alloc : Z -> Z * mem) (b : block) (d : bytes) (items : Z) (rows : list bytes) (offset i limit : Z) (fuel : nat)
    : M (pyres unit * block) :=
  match fuel with
  | O => mfail AbortCall
  | S k =>
      if zlen rows <=? i then mret (PyRet tt, b) else
      '(a, m) <- local (np_copy e alloc d items (firstn (Z.to_nat limit) (skipn (Z.to_nat i) rows))) ;;
      '(r, b) <- pm_write e b (offset + i) a m ;;
      match r with
      | PyRaise x => mret (PyRaise x, b)
      | PyRet _ => pm_chunks e alloc b d items rows offset (i + limit) limit k
      end
  end.

(* __init__.py:280-320 FileMPI.create_from_array: this rank's array has the
   given rows of items elements of type d. As py_create_from_array otherwise. *)
Definition pm_create_from_array (junk : nat -> nat -> byte) (e : env) (alloc : Z -> Z * mem) (c : comm) (me : nat) (nbase : Z)
    (bf blockname d : bytes) (items : Z) (rows : list bytes) (Nfile : option Z) (memorylimit : Z) : M (pyres block) :=
  size <- allreduce c CLong RSum (zlen rows) ;;
  let sizeperfile := 32 * 1024 * 1024 in
  let Nfile := match Nfile with Some n => n | None => (size + sizeperfile - 1) / sizeperfile end in
  lens <- allgather c CLong (zlen rows) ;;
  let offset := zsum (firstn (rank_in c me) lens) in
  let itemlimit := py_itemlimit memorylimit (itemsize (e_me e) (dtype_normalize (e_me e) d) * items) in
  pm_bind (pm_create e c me bf blockname d items size Nfile) (fun b =>
  '(r, b) <- (if itemlimit =? 0 then mret (PyRaise ValueError, b)
              else if itemlimit <? 0 then mret (PyRet tt, b)
              else pm_chunks e alloc b d items rows offset 0 itemlimit (S (length rows))) ;;
  pm_bind (pm_flush junk e c me nbase b) (fun _ =>
  match r with
  | PyRaise x => mret (PyRaise x)
  | PyRet _ => pm_open e c bf blockname
  end)).
