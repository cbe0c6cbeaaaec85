(* The Python view of the attributes of a block: b.attrs. *)
From Coq.Strings Require Import Byte String.
From Coq Require Import List ZArith Bool.
From Verif Require Import Base Dtype Cast Array FS Fmt Attr Block Spec AttrSpec SessSpec Py.
Import ListNotations.
Open Scope Z_scope.
Local Open Scope out_scope.

(* What is assigned. A string is given by its encoding; numpy.array(value)
   makes an array of the last two kinds from anything else. VStrs is a list of
   strings; VArr an array of n elements of another type, dtype.base.str and
   bytes; VObj an array of Python objects. *)
Inductive pyval : Type :=
| VStr (s : bytes)
| VStrs (l : list bytes)
| VArr (d : bytes) (n : Z) (data : bytes)
| VObj.

(* What reading returns: a string, a list of strings, an array. *)
Inductive pyread : Type :=
| RStr (s : bytes)
| RStrs (l : list bytes)
| RArr (d : bytes) (n : Z) (data : bytes).

(* numpy.array([...]) of encoded strings: type S<w> with w the length of the
   longest, each padded with NUL; an element read back has no trailing NUL. *)
Definition longest (l : list bytes) : Z := fold_right (fun s w => Z.max (zlen s) w) 0 l.
Definition pad (w : Z) (s : bytes) : bytes := s ++ repeat x00 (Z.to_nat (w - zlen s)).
Fixpoint drop_nul (l : bytes) : bytes :=
  match l with
  | c :: r => if Byte.eqb c x00 then drop_nul r else l
  | [] => []
  end.
Definition strip_nul (l : bytes) : bytes := rev (drop_nul (rev l)).

(* pyxbigfile.pyx:253-266: the type, the number of elements and the buffer
   handed to big_block_set_attr; None raises ValueError. *)
Definition attr_buffer (v : pyval) : option (bytes * Z * bytes) :=
  match v with
  | VStr s => Some (lit "a1", zlen s, s)
  | VStrs l => Some (lit "|S" ++ print_signed (longest l), zlen l, concat (map (pad (longest l)) l))
  | VArr d n data => Some (d, n, data)
  | VObj => None
  end.

Section AttrSet.
  Variables (e : env).
  (* numpy's allocator, as in Py.v *)
  Variable alloc : Z -> Z * mem.

  (* pyxbigfile.pyx:248-273 __setitem__ *)
  Definition py_attr_set (b : block) (name : bytes) (v : pyval) : out (pyres unit * block) :=
    match attr_buffer v with
    | None => Ret (PyRaise ValueError, b)
    | Some (d, n, data) =>
        let '(p, m) := alloc (zlen data) in
        let m := fun x => if (p <=? x) && (x <? p + zlen data) then nth_error data (Z.to_nat (x - p)) else m x in
        '(rc, s, _) <- attrset_set_attr (e_realloc e) (e_me e) (b_attrset b) name m p d n ;;
        Ret (if rc =? 0 then PyRet tt else PyRaise BigError, set_attrs b s)
    end.

  (* pyxbigfile.pyx:224-238 __getitem__. attr[0].dtype[1] tells the strings. *)
  Definition py_attr_get (b : block) (name : bytes) : out (pyres pyread * block) :=
    r <- attrset_lookup_attr (b_attrset b) name ;;
    match r with
    | None => Ret (PyRaise KeyError, b)
    | Some a =>
        let w := itemsize (e_me e) (at_dtype a) in
        let '(p, m) := alloc (at_nmemb a * w) in
        '(rc, s, m') <- attrset_get_attr (e_me e) (b_attrset b) name m p (at_dtype a) (at_nmemb a) ;;
        let b' := set_attrs b s in
        if negb (rc =? 0) then Ret (PyRaise BigError, b') else
        data <- or_ub OOB (load m' p (Z.to_nat (at_nmemb a * w))) ;;
        let k := nth 1 (at_dtype a) x00 in
        Ret (PyRet (if Byte.eqb k "S" then RStrs (map strip_nul (group (Z.to_nat w) (Z.to_nat (at_nmemb a)) data))
                    else if Byte.eqb k "a" then RStr data
                    else RArr (at_dtype a) (at_nmemb a) data), b')
    end.

  (* pyxbigfile.pyx:240-246 __delitem__ *)
  Definition py_attr_del (b : block) (name : bytes) : out (pyres unit * block) :=
    r <- attrset_lookup_attr (b_attrset b) name ;;
    match r with
    | None => Ret (PyRaise KeyError, b)
    | Some _ => '(_, s) <- attrset_remove_attr (b_attrset b) name ;; Ret (PyRet tt, set_attrs b s)
    end.

  (* pyxbigfile.pyx:217-222 __contains__ *)
  Definition py_attr_in (b : block) (name : bytes) : out bool :=
    r <- attrset_lookup_attr (b_attrset b) name ;;
    Ret (match r with Some _ => true | None => false end).

  (* pyxbigfile.pyx:205-209 keys. Strings in the order of their code points,
     which is that of the bytes of their encoding. *)
  Fixpoint ins_name (x : bytes) (l : list bytes) : list bytes :=
    match l with
    | [] => [x]
    | y :: r => match strcmp x y with Gt => y :: ins_name x r | _ => x :: l end
    end.
  Fixpoint sort_names (l : list bytes) : list bytes :=
    match l with [] => [] | x :: r => ins_name x (sort_names r) end.
  Definition py_attr_keys (b : block) : out (list bytes) :=
    l <- attr_names (b_attrset b) ;; Ret (sort_names l).

  (* A statement of a program that works with b.attrs. DReopen closes the
     block and opens it again; DFlush flushes it. *)
  Inductive dop : Type :=
  | DSet (name : bytes) (v : pyval)
  | DDel (name : bytes)
  | DGet (name : bytes)
  | DIn (name : bytes)
  | DKeys
  | DFlush
  | DReopen.

  (* What it shows. *)
  Inductive pyans : Type :=
  | ADone
  | AShow (r : pyread)
  | ABool (x : bool)
  | AKeys (l : list bytes)
  | ARaise (x : pyexn).

  Definition answer {A} (h : A -> pyans) (r : pyres A) : pyans :=
    match r with PyRet a => h a | PyRaise x => ARaise x end.
  (* pyxbigfile.pyx:507-511 _flush; 577-580 __dealloc__ and 353-359 open:
     bigfile.Error if the return code is not 0 *)
  Definition py_attr_step (st : fs * block) (o : dop) : out (pyans * (fs * block)) :=
    let '(f, b) := st in
    match o with
    | DSet name v => '(r, b') <- py_attr_set b name v ;; Ret (answer (fun _ => ADone) r, (f, b'))
    | DDel name => '(r, b') <- py_attr_del b name ;; Ret (answer (fun _ => ADone) r, (f, b'))
    | DGet name => '(r, b') <- py_attr_get b name ;; Ret (answer AShow r, (f, b'))
    | DIn name => x <- py_attr_in b name ;; Ret (ABool x, st)
    | DKeys => l <- py_attr_keys b ;; Ret (AKeys l, st)
    | DFlush => '(rc, st') <- sstep e st SFlush ;; Ret (if rc =? 0 then ADone else ARaise BigError, st')
    | DReopen => '(rc, st') <- sstep e st SReopen ;; Ret (if rc =? 0 then ADone else ARaise BigError, st')
    end.
  Fixpoint py_attr_run (st : fs * block) (os : list dop) : out (list pyans * (fs * block)) :=
    match os with
    | [] => Ret ([], st)
    | o :: r =>
        '(x, st1) <- py_attr_step st o ;;
        '(xs, st2) <- py_attr_run st1 r ;;
        Ret (x :: xs, st2)
    end.
End AttrSet.
