(* Histories of attribute operations on a block, across flush and reopen. *)
From Coq.Strings Require Import Byte String.
From Coq Require Import List ZArith Bool.
From Verif Require Import Base Dtype Cast Array FS Fmt Attr Block Spec AttrSpec OpenSpec.
Import ListNotations.
Open Scope Z_scope.
Local Open Scope out_scope.

Inductive sop : Type :=
| SSet (name : bytes) (um : mem) (data : Z) (dtype : bytes) (n : Z)
| SRemove (name : bytes)
| SFlush
| SReopen.       (* close, then open *)

(* The code. *)
Definition sstep (e : env) (st : fs * block) (o : sop) : out (Z * (fs * block)) :=
  let '(f, b) := st in
  match o with
  | SSet name um data dtype n =>
      '(rc, s, _) <- attrset_set_attr (e_realloc e) (e_me e) (b_attrset b) name um data dtype n ;;
      Ret (rc, (f, set_attrs b s))
  | SRemove name =>
      '(rc, s) <- attrset_remove_attr (b_attrset b) name ;; Ret (rc, (f, set_attrs b s))
  | SFlush => '(rc, f', b') <- big_block_flush e f b ;; Ret (rc, (f', b'))
  | SReopen =>
      '(rc, f') <- big_block_close e f b ;;
      r <- big_block_open e f' (b_base b) ;;
      match r with
      | None => Ret (-1, (f', b))
      | Some b' => Ret (rc, (f', b'))
      end
  end.
Fixpoint srun (e : env) (st : fs * block) (os : list sop) : out (list Z * (fs * block)) :=
  match os with
  | [] => Ret ([], st)
  | o :: r =>
      '(rc, st1) <- sstep e st o ;;
      '(rcs, st2) <- srun e st1 r ;;
      Ret (rc :: rcs, st2)
  end.

(* The specification: the attributes of the handle, those on disk, and
   whether the next flush will write them. *)
Record sstate : Type := mkS { live : amap; saved : amap; pending : bool }.
Definition sflush (a : sstate) : sstate := mkS (live a) (if pending a then live a else saved a) false.
Definition sspec (me : endian) (a : sstate) (o : sop) : Z * sstate :=
  match o with
  | SSet name um data dtype n =>
      if has_blank name then (-1, mkS (live a) (saved a) true)
      else (0, mkS (with_attr (live a) name (Some (sval me um data dtype n))) (saved a) true)
  | SRemove name =>
      match live a name with
      | None => (-1, a)
      | Some _ => (0, mkS (with_attr (live a) name None) (saved a) (pending a))
      end
  | SFlush => (0, sflush a)
  | SReopen => (0, mkS (saved (sflush a)) (saved (sflush a)) false)
  end.
Fixpoint sspecs (me : endian) (a : sstate) (os : list sop) : list Z * sstate :=
  match os with
  | [] => ([], a)
  | o :: r =>
      let '(rc, a1) := sspec me a o in
      let '(rcs, a2) := sspecs me a1 r in
      (rc :: rcs, a2)
  end.
Definition sstart : sstate := mkS no_attrs no_attrs false.

(* Legal operations whose values a file can hold. *)
Definition sop_ok (me : endian) (o : sop) : Prop :=
  match o with
  | SSet name um data dtype n =>
      aop_ok me (ASet name um data dtype n) /\
      (has_blank name = false -> durable me name (sval me um data dtype n))
  | SRemove name => nul_free name
  | _ => True
  end.
Definition sop_size (me : endian) (o : sop) : Z :=
  match o with
  | SSet name um data dtype n => aop_size me (ASet name um data dtype n)
  | _ => 0
  end.
