(* What sessions through FileMPI are for. *)
From Coq.Strings Require Import Byte String.
From Coq Require Import List ZArith Bool.
From Verif Require Import Base FS Spec HistSpec MpiSpec MpiSess.
Import ListNotations.
Open Scope Z_scope.

(* A session of all ranks: the rows of the ranks go one after the other to the
   rows of the block from the given one on. *)
Record session : Type := mkSession { s_first : Z; s_rows : nat -> list bytes; s_limit : nat -> Z }.
(* The part of rank i. *)
Definition part_of (s : session) (i : nat) : psess :=
  mkSess (s_first s + zsum (map (fun j => zlen (s_rows s j)) (seq 0 i))) (s_rows s i) (s_limit s i).
(* All rows of the session. *)
Definition session_rows (N : nat) (s : session) : list bytes := flat_map (s_rows s) (seq 0 N).
(* The rows have the width of the block and lie in it. *)
Definition session_ok (N : nat) (w size : Z) (s : session) : Prop :=
  0 <= s_first s /\ s_first s + zlen (session_rows N s) <= size /\
  Forall (fun v => zlen v = w) (session_rows N s) /\ forall i, (i < N)%nat -> 0 < s_limit s i.
(* The table after the sessions. *)
Fixpoint after_sessions (N : nat) (t : table) (l : list session) : table :=
  match l with
  | [] => t
  | s :: r => after_sessions N (with_rows t (s_first s) (session_rows N s)) r
  end.

(* The checksum recorded for physical file j, if it was c before: every rank
   starts from the recorded one, and all of theirs are added up. *)
Definition sum_after (N : nat) (sizes : list Z) (j : nat) (c : Z) (s : session) : Z :=
  match session_rows N s with
  | [] => c
  | rows => (Z.of_nat N * c + bytes_into sizes j (s_first s) rows) mod 2 ^ 32
  end.
Fixpoint sum_after_all (N : nat) (sizes : list Z) (j : nat) (c : Z) (l : list session) : Z :=
  match l with
  | [] => c
  | s :: r => sum_after_all N sizes j (sum_after N sizes j c s) r
  end.

(* No session writes a row that has been written before. *)
Fixpoint fresh_sessions (N : nat) (t : table) (l : list session) : Prop :=
  match l with
  | [] => True
  | s :: r => (forall q, s_first s <= q < s_first s + zlen (session_rows N s) -> t_row t q = None) /\
      fresh_sessions N (with_rows t (s_first s) (session_rows N s)) r
  end.
