(* What a user sees of an attribute set. *)
From Coq.Strings Require Import Byte String.
From Coq Require Import List ZArith Bool.
From Verif Require Import Base Dtype Cast Array FS Fmt Attr Spec.
Import ListNotations.
Open Scope Z_scope.
Local Open Scope out_scope.

(* A value: (normalised) element type, number of elements, bytes. *)
Record aval : Type := mkAval { av_dtype : bytes; av_nmemb : Z; av_data : bytes }.

(* Looking up name shows r (big_block_lookup_attr). *)
Definition attr_shows (s : attrset) (name : bytes) (r : option aval) : Prop :=
  match r with
  | None => attrset_lookup_attr s name = Ret None
  | Some v => exists a, attrset_lookup_attr s name = Ret (Some a) /\
      at_dtype a = av_dtype v /\ at_nmemb a = av_nmemb v /\
      load (as_mem s) (at_data a) (length (av_data v)) = Some (av_data v)
  end.

(* The names in the attribute list, in its order (big_block_list_attrs). *)
Fixpoint names_of (s : attrset) (l : list attr) : out (list bytes) :=
  match l with
  | [] => Ret []
  | a :: r => n <- attr_name s a ;; ns <- names_of s r ;; Ret (n :: ns)
  end.
Definition attr_names (s : attrset) : out (list bytes) := names_of s (as_list s).

(* Sorted by strcmp, without duplicates. *)
Fixpoint sorted_names (l : list bytes) : Prop :=
  match l with
  | [] => True
  | x :: r => match r with [] => True | y :: _ => strcmp x y = Lt end /\ sorted_names r
  end.

(* A C string has no NUL in it. *)
Definition nul_free (s : bytes) : Prop := ~ In x00 s.

(* Operations on the set. ASet takes the value from n elements of type dtype
   at address data of a memory um. *)
Inductive aop : Type :=
| ASet (name : bytes) (um : mem) (data : Z) (dtype : bytes) (n : Z)
| ARemove (name : bytes).

(* Legal calls: the names are C strings, the value is readable, its size fits
   an int, and the type has a size. *)
Definition aop_ok (me : endian) (o : aop) : Prop :=
  match o with
  | ASet name um data dtype n =>
      nul_free name /\ 0 < itemsize me dtype /\ 0 <= n /\ itemsize me dtype * n < 2 ^ 31 /\
      exists v, load um data (Z.to_nat (n * itemsize me dtype)) = Some v
  | ARemove name => nul_free name
  end.

(* Bytes of buffer an operation may use. *)
Definition aop_size (me : endian) (o : aop) : Z :=
  match o with
  | ASet name _ _ dtype n => itemsize me dtype * n + zlen name + 1
  | ARemove _ => 0
  end.

(* The code: run the operations, collecting the return codes. *)
Definition astep (ra : Z -> Z -> Z) (me : endian) (s : attrset) (o : aop) : out (Z * attrset) :=
  match o with
  | ASet name um data dtype n =>
      '(rc, s', _) <- attrset_set_attr ra me s name um data dtype n ;; Ret (rc, s')
  | ARemove name => attrset_remove_attr s name
  end.
Fixpoint arun (ra : Z -> Z -> Z) (me : endian) (s : attrset) (os : list aop)
    : out (list Z * attrset) :=
  match os with
  | [] => Ret ([], s)
  | o :: r =>
      '(rc, s1) <- astep ra me s o ;;
      '(rcs, s2) <- arun ra me s1 r ;;
      Ret (rc :: rcs, s2)
  end.

(* The specification: a finite map from names to values. *)
Definition amap : Type := bytes -> option aval.
Definition no_attrs : amap := fun _ => None.
Definition with_attr (m : amap) (name : bytes) (v : option aval) : amap :=
  fun n => if bytes_eqb n name then v else m n.
Definition sval (me : endian) (um : mem) (data : Z) (dtype : bytes) (n : Z) : aval :=
  mkAval (dtype_normalize me dtype) n
    (match load um data (Z.to_nat (n * itemsize me dtype)) with Some v => v | None => [] end).
Definition aspec (me : endian) (m : amap) (o : aop) : Z * amap :=
  match o with
  | ASet name um data dtype n =>
      if has_blank name then (-1, m)
      else (0, with_attr m name (Some (sval me um data dtype n)))
  | ARemove name =>
      match m name with
      | None => (-1, m)
      | Some _ => (0, with_attr m name None)
      end
  end.
Fixpoint aspecs (me : endian) (m : amap) (os : list aop) : list Z * amap :=
  match os with
  | [] => ([], m)
  | o :: r =>
      let '(rc, m1) := aspec me m o in
      let '(rcs, m2) := aspecs me m1 r in
      (rc :: rcs, m2)
  end.
