(* What the programs that share rows among processes should do. *)
From Coq.Strings Require Import Byte String.
From Coq Require Import List ZArith Bool.
From Verif Require Import Base CopyMpi Share.
Import ListNotations.
Open Scope Z_scope.

(* l is one of the orders in which workers that did the items in their logs
   can have done them: worker k's items in l are its log. *)
Definition interleaves {A : Type} (l : list (nat * A)) (logs : list (list A)) : Prop :=
  forall k, map snd (filter (fun x => (fst x =? k)%nat) l) = nth k logs [].

(* l1 is l2 with some elements left out. *)
Inductive subseq {A : Type} : list A -> list A -> Prop :=
| sub_nil : subseq [] []
| sub_skip x l1 l2 : subseq l1 l2 -> subseq l1 (x :: l2)
| sub_take x l1 l2 : subseq l1 l2 -> subseq (x :: l1) (x :: l2).

(* The random numbers are in range. *)
Definition fair (G : rng) : Prop :=
  (forall s n, 0 < n -> 0 <= fst (rg_uniform G s n) < n) /\
  (forall s n, 0 <= fst (rg_poisson G s n)).

(* How many rows are to be chosen from the rows o, ..., o + c - 1: the entry of
   the plan for them. *)
Definition quota (G : rng) (all : bool) (K size o c n : Z) : Prop :=
  exists x, In x (sample_plan G all K size) /\ k_off x = o /\ k_chunk x = c /\ k_nsel x = n.

(* The items sched were processed, in this order, by n workers that a server
   gave pieces of at most chunk rows of a block of size rows: at any point of
   any run of their protocol (CopyMpi.v), with any interleaving of what the
   workers did. If finished, everybody has returned and no item failed. An
   empty block is not handed out. *)
Definition processed (n : nat) (size chunk : Z) (sched : list (nat * (Z * Z))) (finished : bool) : Prop :=
  size = 0 /\ sched = [] \/
  0 < size /\ exists eager k s, cruns eager size k (c_start n size chunk) s /\
    interleaves sched (map (fun w => map fst (w_log w)) (c_ws s)) /\ (finished = true -> all_done s /\ no_failure s).
