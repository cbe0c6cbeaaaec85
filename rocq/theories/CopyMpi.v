(* The processes of bigfile-copy-mpi while they copy the rows: process 0 hands
   out the work, the others do it. *)
From Coq Require Import List ZArith.
Import ListNotations.
Open Scope Z_scope.

(* utils/bigfile-copy-mpi.c:14-17: DONE_TAG and ERROR_TAG, sent to the server
   with one int that it ignores; WORK_TAG with two longs, DIE_TAG *)
Inductive answer : Type := DONE | ERROR.
Inductive order : Type := WORK (offset chunk : Z) | DIE.

(* utils/bigfile-copy-mpi.c:153-196 slave, by the points where it waits or
   communicates: about to send (155, 189, 192); in MPI_Send; in MPI_Recv (159);
   copying the rows it was given (164-188); returned (161-163). *)
Inductive wstate : Type :=
| W_Send (a : answer)
| W_Wait
| W_Recv
| W_Work (offset chunk : Z)
| W_End.
(* A worker, its messages to the server and from the server that were sent and
   not yet received, and what it copied so far: the items and whether reading,
   seeking and writing all succeeded (169-186). MPI keeps the messages of one
   pair of processes in order. Not modelled: what copying does to the files,
   see copy_loop_rows; that it can fail is. *)
Record worker := mkW { w_state : wstate; w_up : list answer; w_down : list order; w_log : list (Z * Z * bool) }.

(* utils/bigfile-copy-mpi.c:120-152 server: waiting for a message (127); in
   MPI_Send of work to worker i (139); about to send DIE to worker k (147-149);
   in that MPI_Send; returned; undefined behaviour (signed overflow, 134).
   Workers are counted from 0 here; their ranks are one more. *)
Inductive sstate : Type :=
| S_Recv (offset chunk : Z)
| S_Sent (offset chunk : Z) (i : nat)
| S_Die (k : nat)
| S_DieSent (k : nat)
| S_End
| S_Overflow.
Record cstate := mkC { c_srv : sstate; c_ws : list worker }.

(* utils/bigfile-copy-mpi.c:124: the loop condition *)
Definition s_head (size offset chunk : Z) : sstate := if offset <? size then S_Recv offset chunk else S_Die 0.
(* utils/bigfile-copy-mpi.c:134-136: the chunk is cut at the end *)
Definition s_cut (size offset chunk : Z) : Z := if size <? offset + chunk then size - offset else chunk.

(* One step of one process. A message is sent in one step, and MPI_Send then
   returns: if eager, at any time (MPI keeps the message), else not before the
   message is received. The server receives a message from any worker that
   has sent one (127, MPI_ANY_SOURCE). *)
Inductive cstep (eager : bool) (size : Z) : cstate -> cstate -> Prop :=
(* 155, 189, 192 *)
| cs_send s l1 a up down log l2 :
    cstep eager size (mkC s (l1 ++ mkW (W_Send a) up down log :: l2)) (mkC s (l1 ++ mkW W_Wait (up ++ [a]) down log :: l2))
| cs_sent s l1 up down log l2 : eager = true \/ up = [] ->
    cstep eager size (mkC s (l1 ++ mkW W_Wait up down log :: l2)) (mkC s (l1 ++ mkW W_Recv up down log :: l2))
(* 159-165 *)
| cs_work s l1 up o c down log l2 :
    cstep eager size (mkC s (l1 ++ mkW W_Recv up (WORK o c :: down) log :: l2)) (mkC s (l1 ++ mkW (W_Work o c) up down log :: l2))
| cs_die s l1 up down log l2 :
    cstep eager size (mkC s (l1 ++ mkW W_Recv up (DIE :: down) log :: l2)) (mkC s (l1 ++ mkW W_End up down log :: l2))
(* 169-193 *)
| cs_done s l1 o c up down log l2 :
    cstep eager size (mkC s (l1 ++ mkW (W_Work o c) up down log :: l2)) (mkC s (l1 ++ mkW (W_Send DONE) up down (log ++ [(o, c, true)]) :: l2))
| cs_fail s l1 o c up down log l2 :
    cstep eager size (mkC s (l1 ++ mkW (W_Work o c) up down log :: l2)) (mkC s (l1 ++ mkW (W_Send ERROR) up down (log ++ [(o, c, false)]) :: l2))
(* 127-141; no other process sees the server between receiving and sending *)
| cs_hand o c l1 st up down log l2 : o + c < 2 ^ 63 ->
    cstep eager size (mkC (S_Recv o c) (l1 ++ mkW st (DONE :: up) down log :: l2))
      (mkC (S_Sent (o + s_cut size o c) (s_cut size o c) (length l1)) (l1 ++ mkW st up (down ++ [WORK o (s_cut size o c)]) log :: l2))
| cs_overflow o c l1 st up down log l2 : 2 ^ 63 <= o + c ->
    cstep eager size (mkC (S_Recv o c) (l1 ++ mkW st (DONE :: up) down log :: l2)) (mkC S_Overflow (l1 ++ mkW st up down log :: l2))
| cs_break o c l1 st up down log l2 :
    cstep eager size (mkC (S_Recv o c) (l1 ++ mkW st (ERROR :: up) down log :: l2)) (mkC (S_Die 0) (l1 ++ mkW st up down log :: l2))
| cs_handed o c l1 st up down log l2 : eager = true \/ down = [] ->
    cstep eager size (mkC (S_Sent o c (length l1)) (l1 ++ mkW st up down log :: l2)) (mkC (s_head size o c) (l1 ++ mkW st up down log :: l2))
(* 147-150 *)
| cs_kill l1 st up down log l2 :
    cstep eager size (mkC (S_Die (length l1)) (l1 ++ mkW st up down log :: l2)) (mkC (S_DieSent (length l1)) (l1 ++ mkW st up (down ++ [DIE]) log :: l2))
| cs_killed l1 st up down log l2 : eager = true \/ down = [] ->
    cstep eager size (mkC (S_DieSent (length l1)) (l1 ++ mkW st up down log :: l2)) (mkC (S_Die (S (length l1))) (l1 ++ mkW st up down log :: l2))
| cs_end l : cstep eager size (mkC (S_Die (length l)) l) (mkC S_End l).

(* utils/bigfile-copy-mpi.c:102-109, 120-124, 153-155: NTask = n + 1 processes,
   a block of size > 0 rows, chunk rows fit the buffer (121) *)
Definition c_start (n : nat) (size chunk : Z) : cstate := mkC (s_head size 0 chunk) (repeat (mkW (W_Send DONE) [] [] []) n).

(* runs of k steps *)
Inductive cruns (eager : bool) (size : Z) : nat -> cstate -> cstate -> Prop :=
| cr_nil s : cruns eager size 0 s s
| cr_step k s1 s2 s3 : cruns eager size k s1 s2 -> cstep eager size s2 s3 -> cruns eager size (S k) s1 s3.

(* Everybody has returned. *)
Definition all_done (s : cstate) : Prop := c_srv s = S_End /\ Forall (fun w => w_state w = W_End) (c_ws s).
(* All items the workers copied or tried to copy. *)
Definition all_items (s : cstate) : list (Z * Z * bool) := concat (map w_log (c_ws s)).
(* How many of these items contain row r. *)
Definition times (r : Z) (l : list (Z * Z * bool)) : nat := length (filter (fun x => (fst (fst x) <=? r) && (r <? fst (fst x) + snd (fst x))) l)%bool.
Definition no_failure (s : cstate) : Prop := Forall (fun x => snd x = true) (all_items s).
