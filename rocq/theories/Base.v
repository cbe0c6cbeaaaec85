(* Base vocabulary of the model: bytes, C strings, machine numbers,
   outcomes, lists indexed by Z, and user memory. *)
From Coq.Strings Require Import Byte String.
From Coq Require Import List ZArith Lia Bool.
Import ListNotations.
Open Scope Z_scope.

Notation bytes := (list byte).

(* ------------------------------------------------------------------ *)
(* Outcomes of running a piece of C code.                               *)
(* [Ret x]: control returns normally with x (C return codes such as -1  *)
(* are ordinary values inside x).  [Undef w]: the C standard gives the   *)
(* execution no meaning (out-of-bounds access, division by zero,         *)
(* out-of-range float to integer conversion ...).  [Diverge]: the loop   *)
(* fuel ran out.                                                         *)
Inductive ub : Type :=
| OOB            (* access outside an object *)
| DivZero        (* division by zero *)
| FloatRange     (* float to integer conversion out of range *)
| NullDeref      (* access through a null pointer *)
| UninitRead     (* use of an indeterminate value *)
| IntOverflow    (* signed overflow *)
| AbortCall      (* abort() *)
| Overlap.       (* string copied onto itself *)

Inductive out (A : Type) : Type :=
| Ret (a : A)
| Undef (w : ub)
| Diverge.
Arguments Ret {A} a.
Arguments Undef {A} w.
Arguments Diverge {A}.

Definition bind {A B : Type} (x : out A) (f : A -> out B) : out B :=
  match x with
  | Ret a => f a
  | Undef w => Undef w
  | Diverge => Diverge
  end.

Declare Scope out_scope.
Delimit Scope out_scope with out.
Notation "x <- e ;; f" := (bind e (fun x => f))
  (at level 61, e at next level, right associativity) : out_scope.
Notation "' p <- e ;; f" := (bind e (fun p => f))
  (at level 61, p pattern, e at next level, right associativity) : out_scope.

(* An access that the C code performs without a check. *)
Definition or_ub {A : Type} (w : ub) (o : option A) : out A :=
  match o with Some a => Ret a | None => Undef w end.

(* ------------------------------------------------------------------ *)
(* Machine integers: plain Z plus explicit wrap-around.                  *)
Definition u32 (z : Z) : Z := z mod 2 ^ 32.
Definition u64 (z : Z) : Z := z mod 2 ^ 64.
Definition s32 (z : Z) : Z := (z + 2 ^ 31) mod 2 ^ 32 - 2 ^ 31.
Definition s64 (z : Z) : Z := (z + 2 ^ 63) mod 2 ^ 64 - 2 ^ 63.

(* ------------------------------------------------------------------ *)
(* Bytes.                                                               *)
Definition b2z (b : byte) : Z := Z.of_N (Byte.to_N b).
Definition z2b (z : Z) : byte :=
  match Byte.of_N (Z.to_N (z mod 256)) with Some b => b | None => x00 end.

(* String literals of the C source. *)
Definition lit (s : string) : bytes := list_byte_of_string s.

Fixpoint bytes_eqb (a b : bytes) : bool :=
  match a, b with
  | [], [] => true
  | x :: a', y :: b' => Byte.eqb x y && bytes_eqb a' b'
  | _, _ => false
  end.

(* Little-endian value of a byte string and its inverse. *)
Fixpoint le_val (l : bytes) : Z :=
  match l with
  | [] => 0
  | b :: r => b2z b + 256 * le_val r
  end.
Fixpoint le_enc (n : nat) (z : Z) : bytes :=
  match n with
  | O => []
  | S n' => z2b z :: le_enc n' (z / 256)
  end.

(* ------------------------------------------------------------------ *)
(* Lists indexed by Z (C arrays). *)
Definition znth {A : Type} (l : list A) (i : Z) : option A :=
  if i <? 0 then None else nth_error l (Z.to_nat i).

Fixpoint upd {A : Type} (l : list A) (n : nat) (x : A) : list A :=
  match l, n with
  | [], _ => []
  | _ :: r, O => x :: r
  | y :: r, S n' => y :: upd r n' x
  end.

Definition zupd {A : Type} (l : list A) (i : Z) (x : A) : option (list A) :=
  if (i <? 0) || (Z.of_nat (length l) <=? i) then None
  else Some (upd l (Z.to_nat i) x).

Definition zlen {A : Type} (l : list A) : Z := Z.of_nat (length l).

Definition zsum (l : list Z) : Z := fold_right Z.add 0 l.
Definition zprod (l : list Z) : Z := fold_right Z.mul 1 l.

(* Integers 0 .. n-1 as Z. *)
Definition zrange (n : nat) : list Z := map Z.of_nat (seq 0 n).

(* ------------------------------------------------------------------ *)
(* Byte-addressed memory: None marks an address outside every object. *)
Definition mem : Type := Z -> option byte.

Fixpoint load (m : mem) (a : Z) (n : nat) : option bytes :=
  match n with
  | O => Some []
  | S n' =>
      match m a with
      | None => None
      | Some b => match load m (a + 1) n' with
                  | None => None
                  | Some r => Some (b :: r)
                  end
      end
  end.

Fixpoint store (m : mem) (a : Z) (l : bytes) : option mem :=
  match l with
  | [] => Some m
  | b :: r =>
      match m a with
      | None => None
      | Some _ => store (fun x => if x =? a then Some b else m x) (a + 1) r
      end
  end.

(* A memory made of one object holding l at address a. *)
Definition mem_of (a : Z) (l : bytes) : mem :=
  fun x => if x <? a then None else nth_error l (Z.to_nat (x - a)).
