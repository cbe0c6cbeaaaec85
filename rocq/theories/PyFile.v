(* File of the Python package: a dictionary of blocks. *)
From Coq.Strings Require Import Byte String.
From Coq Require Import List ZArith Bool.
From Verif Require Import Base Dtype Cast Array FS Fmt Attr Block File Spec HistSpec Py PyAttr.
Import ListNotations.
Open Scope Z_scope.
Local Open Scope out_scope.

(* __init__.py:90-94, 119-122: the path, and the list of blocks if there is one
   already. *)
Record pfile : Type := mkFile { pf_path : bytes; pf_blocks : option (list bytes) }.

(* pyxbigfile.pyx:184-196 list_blocks *)
Definition py_list_blocks (f : fs) (path : bytes) : out (list bytes) :=
  l <- big_file_list f path ;; Ret (sort_names l).
(* __init__.py:124-130 File.blocks, the property behind keys and in *)
Definition py_blocks (f : fs) (p : pfile) : out (list bytes * pfile) :=
  match pf_blocks p with
  | Some l => Ret (l, p)
  | None => l <- py_list_blocks f (pf_path p) ;; Ret (l, mkFile (pf_path p) (Some l))
  end.
(* pyxbigfile.pyx:145-157 __init__ without create, then __init__.py:120-122 *)
Definition py_file_open (f : fs) (path : bytes) : option pfile :=
  match big_file_open f path with Some s => Some (mkFile s None) | None => None end.
(* pyxbigfile.pyx:145-157 __init__ with create *)
Definition py_file_new (f : fs) (path : bytes) : fs * option pfile :=
  match big_file_create f path with
  | (f', Some s) => (f', Some (mkFile s None))
  | (f', None) => (f', None)
  end.
(* __init__.py:112-118, pyxbigfile.pyx:167-179: getattr(self, 'blocks', None)
   makes the list. A failure of big_file_open is not noticed. *)
Definition py_file_pickle (f : fs) (p : pfile) : out (option pfile * pfile) :=
  '(l, p') <- py_blocks f p ;;
  Ret (match big_file_open f (pf_path p) with Some s => Some (mkFile s (Some l)) | None => None end, p').

Inductive fop : Type :=
| FOpen                                                        (* File(path) *)
| FCreate (i : nat) (name d : bytes) (items size Nfile : Z)    (* f.create(...), the Column is released *)
| FKeys (i : nat)                                              (* f.keys() *)
| FIn (i : nat) (name : bytes)                                 (* name in f *)
| FUse (i : nat) (name : bytes) (os : list hop)                (* b = f[name], calls on b, b is released *)
| FPickle (i : nat).                                           (* f is pickled and unpickled *)
Inductive fres : Type :=
| FDone | FNames (l : list bytes) | FBool (b : bool) | FRows (xs : list hres) | FRaised (x : pyexn).

Section Step.
  Variables (e : env) (path : bytes).
  Definition set_file (ps : list pfile) (i : nat) (p : pfile) : list pfile := firstn i ps ++ p :: skipn (S i) ps.
  Definition fstep (st : fs * list pfile) (op : fop) : out (fres * (fs * list pfile)) :=
    let '(f, ps) := st in
    match op with
    | FOpen =>
        match py_file_open f path with
        | Some p => Ret (FDone, (f, ps ++ [p]))
        | None => Ret (FRaised BigError, st)
        end
    | FCreate i name d items size Nfile =>
        match nth_error ps i with
        | None => Ret (FRaised BigError, st)
        | Some p =>
            (* __init__.py:137-141 File.create, pyxbigfile.pyx:577-580 *)
            '(f1, r) <- py_create e f (pf_path p) name d items size Nfile ;;
            match r with
            | PyRaise x => Ret (FRaised x, (f1, ps))
            | PyRet b =>
                l <- py_list_blocks f1 (pf_path p) ;;
                '(_, f2) <- big_block_close e f1 b ;;
                Ret (FDone, (f2, set_file ps i (mkFile (pf_path p) (Some l))))
            end
        end
    | FKeys i =>
        match nth_error ps i with
        | None => Ret (FRaised BigError, st)
        | Some p => '(l, p') <- py_blocks f p ;; Ret (FNames l, (f, set_file ps i p'))
        end
    | FIn i name =>
        match nth_error ps i with
        | None => Ret (FRaised BigError, st)
        | Some p => '(l, p') <- py_blocks f p ;; Ret (FBool (existsb (bytes_eqb name) l), (f, set_file ps i p'))
        end
    | FUse i name os =>
        match nth_error ps i with
        | None => Ret (FRaised BigError, st)
        | Some p =>
            (* __init__.py:106-110 __getitem__, 132-135 open *)
            r <- big_file_open_block e f (pf_path p) name ;;
            match r with
            | None => Ret (FRaised BigError, st)
            | Some b =>
                '(xs, (f1, b1)) <- hrun e (f, b) os ;;
                '(_, f2) <- big_block_close e f1 b1 ;;
                Ret (FRows xs, (f2, ps))
            end
        end
    | FPickle i =>
        match nth_error ps i with
        | None => Ret (FRaised BigError, st)
        | Some p =>
            '(q, p') <- py_file_pickle f p ;;
            match q with
            | Some q => Ret (FDone, (f, set_file ps i p' ++ [q]))
            | None => Ret (FRaised BigError, (f, set_file ps i p'))
            end
        end
    end.
  Fixpoint frun (st : fs * list pfile) (os : list fop) : out (list fres * (fs * list pfile)) :=
    match os with
    | [] => Ret ([], st)
    | o :: r =>
        '(x, st1) <- fstep st o ;;
        '(xs, st2) <- frun st1 r ;;
        Ret (x :: xs, st2)
    end.
End Step.
