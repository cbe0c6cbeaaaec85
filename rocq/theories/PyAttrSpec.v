(* Specification of b.attrs: a dict, a copy of it on disk, and whether there
   is something to save. *)
From Coq.Strings Require Import Byte String.
From Coq Require Import List ZArith Bool.
From Verif Require Import Base Dtype Cast Array FS Fmt Attr Block Spec AttrSpec OpenSpec Py PyAttr.
Import ListNotations.
Open Scope Z_scope.

Definition dict : Type := bytes -> option pyval.
Definition empty_dict : dict := fun _ => None.
Definition put (d : dict) (name : bytes) (v : option pyval) : dict :=
  fun n => if bytes_eqb n name then v else d n.

Record dstate : Type := mkD { now : dict; disk : dict; due : bool }.
Definition dstart : dstate := mkD empty_dict empty_dict false.
Definition dflush (s : dstate) : dstate := mkD (now s) (if due s then now s else disk s) false.
(* A name with a blank is refused; so is a value of object type. *)
Definition dnext (s : dstate) (o : dop) : dstate :=
  match o with
  | DSet name VObj => s
  | DSet name v => mkD (if has_blank name then now s else put (now s) name (Some v)) (disk s) true
  | DDel name => mkD (put (now s) name None) (disk s) (due s)   (* nothing to save *)
  | DFlush => dflush s
  | DReopen => mkD (disk (dflush s)) (disk (dflush s)) false
  | _ => s
  end.

(* A string is read as that string, a list of strings as that list, an array
   with its type, length and bytes. *)
Definition as_read (me : endian) (v : pyval) : pyread :=
  match v with
  | VStr s => RStr s
  | VStrs l => RStrs l
  | VArr d n data => RArr (dtype_normalize me d) n data
  | VObj => RStr []
  end.

(* The answer a dict gives. *)
Definition dict_says (me : endian) (d : dict) (o : dop) (x : pyans) : Prop :=
  match o with
  | DSet _ VObj => x = ARaise ValueError
  | DSet name _ => x = if has_blank name then ARaise BigError else ADone
  | DDel name => x = match d name with Some _ => ADone | None => ARaise KeyError end
  | DGet name => x = match d name with Some v => AShow (as_read me v) | None => ARaise KeyError end
  | DIn name => x = ABool (match d name with Some _ => true | None => false end)
  | DKeys => exists l, x = AKeys l /\ sorted_names l /\ forall n, In n l <-> d n <> None
  | DFlush | DReopen => x = ADone
  end.
Fixpoint dict_says_all (me : endian) (s : dstate) (os : list dop) (xs : list pyans) : Prop :=
  match os, xs with
  | [], [] => True
  | o :: os, x :: xs => dict_says me (now s) o x /\ dict_says_all me (dnext s o) os xs
  | _, _ => False
  end.
Definition dfinal (s : dstate) (os : list dop) : dstate := fold_left dnext os s.

(* Legal values: not empty, smaller than 2^30 bytes. Strings in a list are
   shorter than 100000 bytes and do not end in NUL. Arrays have a type of the
   machine's byte order; numpy calls no type but its strings S, and none a. *)
Definition pyval_ok (me : endian) (v : pyval) : Prop :=
  match v with
  | VStr s => s <> [] /\ zlen s < 2 ^ 30
  | VStrs l => l <> [] /\ Forall (fun s => s <> [] /\ last s x01 <> x00 /\ zlen s < 100000) l /\
      zlen l * longest l < 2 ^ 30
  | VArr d n data => 0 < itemsize me d /\ 0 < n < 2 ^ 31 /\ zlen data = n * itemsize me d /\ zlen data < 2 ^ 30 /\
      word (dtype_normalize me d) /\ dt_native me (dtype_normalize me d) = true /\
      dtype_kind me d <> "S"%byte /\ dtype_kind me d <> "a"%byte
  | VObj => True
  end.
(* Names: C strings, not empty. *)
Definition name_ok (name : bytes) : Prop := name <> [] /\ nul_free name.
Definition dop_ok (me : endian) (o : dop) : Prop :=
  match o with
  | DSet name v => name_ok name /\ pyval_ok me v
  | DDel name | DGet name | DIn name => name_ok name
  | _ => True
  end.
(* Bytes of buffer an operation may use. *)
Definition dop_size (o : dop) : Z :=
  match o with
  | DSet name v => match attr_buffer v with Some (_, _, data) => zlen data + zlen name + 1 | None => 0 end
  | _ => 0
  end.

(* The value last assigned. *)
Fixpoint last_set (os : list dop) (name : bytes) : option pyval :=
  match os with
  | [] => None
  | o :: r =>
      match last_set r name with
      | Some v => Some v
      | None =>
          match o with
          | DSet n VObj => None
          | DSet n v => if bytes_eqb n name && negb (has_blank n) then Some v else None
          | _ => None
          end
      end
  end.
Definition no_del (o : dop) : Prop := match o with DDel _ => False | _ => True end.
