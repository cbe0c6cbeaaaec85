(* Filling an existing block in sessions through FileMPI. *)
From Coq.Strings Require Import Byte String.
From Coq Require Import List ZArith Bool.
From Verif Require Import Base Dtype Cast Array FS Fmt Attr Block File Split Pack Par Mpi Py MpiPy.
Import ListNotations.
Open Scope Z_scope.
Local Open Scope prog_scope.

(* What this rank writes in one session: the first row, the rows, and how many
   of them go into one call of write. *)
Record psess : Type := mkSess { ps_first : Z; ps_rows : list bytes; ps_limit : Z }.

(* with f.open(blockname) as b: for i in range(0, len(a), limit):
   b.write(first + i, a[i:i + limit]) on every rank: __init__.py:213-226
   ColumnMPI.open, pyxbigfile.pyx:406-428 write, :319-323 __exit__ and
   __init__.py:231-232 ColumnMPI.flush, which runs also if a write has raised an
   exception. FileMPI.open (__init__.py:266-269) builds the Column. *)
Definition pm_session (junk : nat -> nat -> byte) (e : env) (alloc : Z -> Z * mem) (c : comm) (me : nat) (nbase : Z)
    (bf blockname d : bytes) (items : Z) (s : psess) : M (pyres unit) :=
  pm_bind (pm_open e c bf blockname) (fun b =>
  '(r, b) <- pm_chunks e alloc b d items (ps_rows s) (ps_first s) 0 (ps_limit s) (S (length (ps_rows s))) ;;
  pm_bind (pm_flush junk e c me nbase b) (fun _ => mret r)).

(* One session after the other, until one of them raises. *)
Fixpoint pm_sessions (junk : nat -> nat -> byte) (e : env) (alloc : Z -> Z * mem) (c : comm) (me : nat) (nbase : Z)
    (bf blockname d : bytes) (items : Z) (l : list psess) : M (pyres unit) :=
  match l with
  | [] => mret (PyRet tt)
  | s :: r =>
      pm_bind (pm_session junk e alloc c me nbase bf blockname d items s) (fun _ =>
      pm_sessions junk e alloc c me nbase bf blockname d items r)
  end.
