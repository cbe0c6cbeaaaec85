(* Columns of the Python package that are pickled, and several Columns of one
   block. *)
From Coq.Strings Require Import Byte String.
From Coq Require Import List ZArith Bool.
From Verif Require Import Base Dtype Cast Array FS Fmt Attr Block Pack Spec HistSpec.
Import ListNotations.
Open Scope Z_scope.
Local Open Scope out_scope.

(* A Column: None if its memory has been released (pyxbigfile.pyx:290-291
   _deallocated). The communicator, which serial Columns do not have, is left
   out. *)
Definition column : Type := option block.

(* pyxbigfile.pyx:328-341 __getstate__: the packed handle, or nothing *)
Definition py_getstate (junk : nat -> nat -> byte) (me : endian) (c : column) : out (option bytes) :=
  match c with
  | Some b => img <- block_pack junk me b ;; Ret (Some img)
  | None => Ret None
  end.
(* pyxbigfile.pyx:343-351 __setstate__, called by 283-286 _unpickle_column;
   nbase is the address malloc returns for the attributes *)
Definition py_setstate (me : endian) (nbase : Z) (st : option bytes) : out column :=
  match st with
  | Some img => b <- block_unpack me nbase img ;; Ret (Some b)
  | None => Ret None
  end.
(* pyxbigfile.pyx:577-580 __dealloc__ *)
Definition py_dealloc (e : env) (f : fs) (c : column) : out (Z * fs) :=
  match c with
  | Some b => big_block_close e f b
  | None => Ret (0, f)
  end.
(* pyxbigfile.pyx:455-462, the first half of append: grow, then flush (the
   second half is a write) *)
Definition py_grow (e : env) (f : fs) (b : block) (gs : list Z) : out (Z * fs * block) :=
  '(rc, f1, b1) <- big_block_grow f b (zlen gs) gs ;;
  if negb (rc =? 0) then Ret (rc, f1, b1) else big_block_flush e f1 b1.

(* The Columns of one block, numbered in the order in which they came to be.
   Each may live in a process of its own. *)
Inductive pop : Type :=
| POn (i : nat) (o : hop)            (* a call on Column i *)
| PGrow (i : nat) (gs : list Z)      (* Column i grows *)
| PPickle (i : nat)                  (* Column i is pickled; unpickling makes a new Column *)
| PDrop (i : nat)                    (* Column i is released *)
| POpen.                             (* the block is opened: a new Column *)

Fixpoint set_at {A} (l : list A) (i : nat) (x : A) : list A :=
  match l, i with
  | [], _ => []
  | _ :: r, O => x :: r
  | y :: r, S k => y :: set_at r k x
  end.

Section Step.
  Variables (e : nat -> env) (junk : nat -> nat -> nat -> byte) (nbase : nat -> Z) (base : bytes).
  Definition pstep (st : fs * list column) (op : pop) : out (hres * (fs * list column)) :=
    let '(f, cs) := st in
    let new := length cs in
    match op with
    | POn i o =>
        match nth_error cs i with
        | Some (Some b) => '(x, (f', b')) <- hstep (e i) (f, b) o ;; Ret (x, (f', set_at cs i (Some b')))
        | _ => Ret ((-1, None), st)
        end
    | PGrow i gs =>
        match nth_error cs i with
        | Some (Some b) => '(rc, f', b') <- py_grow (e i) f b gs ;; Ret ((rc, None), (f', set_at cs i (Some b')))
        | _ => Ret ((-1, None), st)
        end
    | PPickle i =>
        match nth_error cs i with
        | Some c =>
            s <- py_getstate (junk i) (e_me (e i)) c ;;
            c' <- py_setstate (e_me (e new)) (nbase new) s ;; Ret ((0, None), (f, cs ++ [c']))
        | None => Ret ((-1, None), st)
        end
    | PDrop i =>
        match nth_error cs i with
        | Some c => '(rc, f') <- py_dealloc (e i) f c ;; Ret ((rc, None), (f', set_at cs i None))
        | None => Ret ((-1, None), st)
        end
    | POpen =>
        r <- big_block_open (e new) f base ;;
        Ret ((match r with Some _ => 0 | None => -1 end, None), (f, cs ++ [r]))
    end.
  Fixpoint prun (st : fs * list column) (os : list pop) : out (list hres * (fs * list column)) :=
    match os with
    | [] => Ret ([], st)
    | o :: r =>
        '(x, st1) <- pstep st o ;;
        '(xs, st2) <- prun st1 r ;;
        Ret (x :: xs, st2)
    end.
End Step.
