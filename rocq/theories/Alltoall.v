(* src/mp-mpiu.c: MPIU_Alltoallv and MPI_Alltoallv_sparse. *)
From Coq Require Import List ZArith Arith Bool.
Import ListNotations.

(* The arguments of all ranks: the number of ranks, and for each rank the
   buffer it sends, and for each rank and partner the counts and displacements.
   Simplification: both datatypes are the same, buffers are lists of elements,
   and counts and displacements are not negative. *)
Record a2a (A : Type) := mkA2A {
  a_n : nat; a_sb : nat -> list A;
  a_sc : nat -> nat -> nat; a_sd : nat -> nat -> nat;
  a_rc : nat -> nat -> nat; a_rd : nat -> nat -> nat }.
Arguments mkA2A {A}. Arguments a_n {A}. Arguments a_sb {A}. Arguments a_sc {A}. Arguments a_sd {A}. Arguments a_rc {A}. Arguments a_rd {A}.

(* src/mp-mpiu.c:169: for(PTask = 0; NTask > (1 << PTask); PTask++). None: the
   shift overflows int. *)
Fixpoint ptask_from (fuel : nat) (n p : nat) : option nat :=
  match fuel with
  | O => None
  | S fuel => if (Z.of_nat n >? 2 ^ Z.of_nat p)%Z then ptask_from fuel n (S p) else Some p
  end.
Definition ptask (n : nat) : option nat := ptask_from 31 n 0.

(* src/mp-mpiu.c:184, 203: ngrp = 0 ... (1 << PTask) - 1 *)
Definition groups (p : nat) : list nat := seq 0 (2 ^ p).
(* src/mp-mpiu.c:186-189, 205-207: the partner of a group, if it exists and
   there is something to exchange *)
Definition partner (n : nat) (cnt : nat -> nat) (me g : nat) : option nat :=
  let target := Nat.lxor me g in
  if n <=? target then None else if cnt target =? 0 then None else Some target.

(* src/mp-mpiu.c:158-236, by the points where a rank can be: posting receives,
   in the first barrier, posting sends, in MPI_Waitall, in the second barrier,
   returned. The branch for NO_ISEND_IRECV_IN_DOMAIN is not modelled. *)
Inductive apc : Type := PRecv (gs : list nat) | PBar1 | PSend (gs : list nat) | PWait | PBar2 | PEnd.
(* A rank: the sources of receives that were posted and not completed, in
   order, and the receive buffer. *)
Record arank (A : Type) := mkR { ar_pc : apc; ar_posted : list nat; ar_buf : list A }.
Arguments mkR {A}. Arguments ar_pc {A}. Arguments ar_posted {A}. Arguments ar_buf {A}.
(* All ranks, and the messages that were sent and not received: from, to, data. *)
Record astate (A : Type) := mkS { as_ranks : list (arank A); as_net : list (nat * nat * list A) }.
Arguments mkS {A}. Arguments as_ranks {A}. Arguments as_net {A}.
(* A state, or undefined behaviour: a message longer than the posted receive,
   or an access outside a buffer. *)
Inductive aout (A : Type) : Type := Run (s : astate A) | Bad.
Arguments Run {A}. Arguments Bad {A}.

Definition in_bar1 (p : apc) : bool := match p with PRecv _ => false | _ => true end.
Definition in_bar2 (p : apc) : bool := match p with PBar2 | PEnd => true | _ => false end.
Definition splice {A} (buf : list A) (off : nat) (d : list A) : list A := firstn off buf ++ d ++ skipn (off + length d) buf.

(* One step of one rank or of the network. A rank leaves a barrier when all
   ranks have entered it. MPI_Waitall (213) waits for the receives, and for
   the sends either nothing (eager) or until they are received. Messages of
   one pair of ranks with the one tag used here are received in order. *)
Inductive astep {A} (x : a2a A) (p : nat) (eager : bool) : astate A -> aout A -> Prop :=
(* 184-194 *)
| as_irecv l1 g gs posted buf l2 net t : partner (a_n x) (a_rc x (length l1)) (length l1) g = Some t ->
    astep x p eager (mkS (l1 ++ mkR (PRecv (g :: gs)) posted buf :: l2) net) (Run (mkS (l1 ++ mkR (PRecv gs) (posted ++ [t]) buf :: l2) net))
| as_rskip l1 g gs posted buf l2 net : partner (a_n x) (a_rc x (length l1)) (length l1) g = None ->
    astep x p eager (mkS (l1 ++ mkR (PRecv (g :: gs)) posted buf :: l2) net) (Run (mkS (l1 ++ mkR (PRecv gs) posted buf :: l2) net))
(* 196 *)
| as_enter1 l1 posted buf l2 net :
    astep x p eager (mkS (l1 ++ mkR (PRecv []) posted buf :: l2) net) (Run (mkS (l1 ++ mkR PBar1 posted buf :: l2) net))
| as_leave1 l1 posted buf l2 net : Forall (fun r => in_bar1 (ar_pc r) = true) (l1 ++ l2) ->
    astep x p eager (mkS (l1 ++ mkR PBar1 posted buf :: l2) net) (Run (mkS (l1 ++ mkR (PSend (groups p)) posted buf :: l2) net))
(* 203-211 *)
| as_isend l1 g gs posted buf l2 net t : partner (a_n x) (a_sc x (length l1)) (length l1) g = Some t ->
    a_sd x (length l1) t + a_sc x (length l1) t <= length (a_sb x (length l1)) ->
    astep x p eager (mkS (l1 ++ mkR (PSend (g :: gs)) posted buf :: l2) net)
      (Run (mkS (l1 ++ mkR (PSend gs) posted buf :: l2)
        (net ++ [(length l1, t, firstn (a_sc x (length l1) t) (skipn (a_sd x (length l1) t) (a_sb x (length l1))))])))
| as_isend_oob l1 g gs posted buf l2 net t : partner (a_n x) (a_sc x (length l1)) (length l1) g = Some t ->
    length (a_sb x (length l1)) < a_sd x (length l1) t + a_sc x (length l1) t ->
    astep x p eager (mkS (l1 ++ mkR (PSend (g :: gs)) posted buf :: l2) net) Bad
| as_sskip l1 g gs posted buf l2 net : partner (a_n x) (a_sc x (length l1)) (length l1) g = None ->
    astep x p eager (mkS (l1 ++ mkR (PSend (g :: gs)) posted buf :: l2) net) (Run (mkS (l1 ++ mkR (PSend gs) posted buf :: l2) net))
(* 213 *)
| as_wait l1 posted buf l2 net :
    astep x p eager (mkS (l1 ++ mkR (PSend []) posted buf :: l2) net) (Run (mkS (l1 ++ mkR PWait posted buf :: l2) net))
| as_waited l1 buf l2 net : eager = true \/ Forall (fun m => fst (fst m) <> length l1) net ->
    astep x p eager (mkS (l1 ++ mkR PWait [] buf :: l2) net) (Run (mkS (l1 ++ mkR PBar2 [] buf :: l2) net))
(* 233 *)
| as_leave2 l1 posted buf l2 net : Forall (fun r => in_bar2 (ar_pc r) = true) (l1 ++ l2) ->
    astep x p eager (mkS (l1 ++ mkR PBar2 posted buf :: l2) net) (Run (mkS (l1 ++ mkR PEnd posted buf :: l2) net))
(* MPI *)
| as_deliver l1 pc q1 src q2 buf l2 n1 d n2 : Forall (fun m => fst m <> (src, length l1)) n1 -> ~ In src q1 ->
    length d <= a_rc x (length l1) src -> a_rd x (length l1) src + a_rc x (length l1) src <= length buf ->
    astep x p eager (mkS (l1 ++ mkR pc (q1 ++ src :: q2) buf :: l2) (n1 ++ (src, length l1, d) :: n2))
      (Run (mkS (l1 ++ mkR pc (q1 ++ q2) (splice buf (a_rd x (length l1) src) d) :: l2) (n1 ++ n2)))
| as_deliver_oob l1 pc q1 src q2 buf l2 n1 d n2 : Forall (fun m => fst m <> (src, length l1)) n1 -> ~ In src q1 ->
    a_rc x (length l1) src < length d \/ length buf < a_rd x (length l1) src + a_rc x (length l1) src ->
    astep x p eager (mkS (l1 ++ mkR pc (q1 ++ src :: q2) buf :: l2) (n1 ++ (src, length l1, d) :: n2)) Bad.

Definition a_start {A} (x : a2a A) (p : nat) (rb : nat -> list A) : astate A :=
  mkS (map (fun me => mkR (PRecv (groups p)) [] (rb me)) (seq 0 (a_n x))) [].
Inductive aruns {A} (x : a2a A) (p : nat) (eager : bool) : nat -> astate A -> astate A -> Prop :=
| ar_nil s : aruns x p eager 0 s s
| ar_step k s1 s2 s3 : aruns x p eager k s1 s2 -> astep x p eager s2 (Run s3) -> aruns x p eager (S k) s1 s3.
Definition a_done {A} (s : astate A) : Prop := Forall (fun r => ar_pc r = PEnd) (as_ranks s).

(* src/mp-mpiu.c:69-156, the arguments that may be NULL. *)
Inductive policy : Type := AUTO | DISABLED | REQUIRED.
Definition total (l : list nat) : nat := fold_right plus 0 l.
(* 93-98: MPI_Alltoall of the counts *)
Definition exchanged (n : nat) (sc : nat -> list nat) (me : nat) : list nat := map (fun src => nth me (sc src) 0) (seq 0 n).
(* 108-123: displs[i] = displs[i - 1] + cnts[i - 1]; None: int overflow *)
Fixpoint sums_from (acc : nat) (l : list nat) : list nat := match l with [] => [] | c :: l => acc :: sums_from (acc + c) l end.
Definition displs (cnts : list nat) : option (list nat) :=
  let d := sums_from 0 cnts in if forallb (fun z => (Z.of_nat z <? 2 ^ 31)%Z) d then Some d else None.
(* 99-107: the number of items to receive; None: int overflow *)
Definition totalrecv (cnts : list nat) : option nat :=
  if (Z.of_nat (total cnts) <? 2 ^ 31)%Z then Some (total cnts) else None.
(* 88-92, 125-136: how many ranks, by MPI_Allreduce, have more than 128
   partners; every rank gets the same number *)
Definition dense (pol : policy) (n : nat) (sc : nat -> list nat) : nat :=
  match pol with
  | AUTO => total (map (fun me => if 128 <? length (filter (fun c => 0 <? c) (sc me)) then 1 else 0) (seq 0 n))
  | DISABLED => 1
  | REQUIRED => 0
  end.

(* 93-123 on all ranks: the arguments if sdispls, recvcnts and rdispls are NULL *)
Definition a2av_args {A} (n : nat) (sb : nat -> list A) (sc : nat -> list nat) : option (a2a A) :=
  let rc := exchanged n sc in
  if forallb (fun me => match displs (sc me), displs (rc me) with Some _, Some _ => true | _, _ => false end) (seq 0 n)
  then Some (mkA2A n sb (fun me i => nth i (sc me) 0) (fun me i => nth i (sums_from 0 (sc me)) 0)
                        (fun me i => nth i (rc me) 0) (fun me i => nth i (sums_from 0 (rc me)) 0))
  else None.
(* What the MPI standard says of MPI_Alltoallv: the receive buffer of rank me
   has the data of each rank in its place and is otherwise unchanged. *)
Definition received {A} (x : a2a A) (me : nat) (before after : list A) : Prop :=
  length after = length before
  /\ (forall s k, s < a_n x -> k < a_rc x me s -> nth_error after (a_rd x me s + k) = nth_error (a_sb x s) (a_sd x s me + k))
  /\ (forall j, (forall s, s < a_n x -> ~ (a_rd x me s <= j < a_rd x me s + a_rc x me s)) -> nth_error after j = nth_error before j).
(* 138-148: what rank me has after MPIU_Alltoallv *)
Definition a2av_ends {A} (pol : policy) (n : nat) (sb : nat -> list A) (sc : nat -> list nat) (rb : nat -> list A) (me : nat) (after : list A) : Prop :=
  exists x, a2av_args n sb sc = Some x /\
    if dense pol n sc =? 0
    then exists p eager k s r, ptask n = Some p /\ aruns x p eager k (a_start x p rb) s /\ a_done s /\ nth_error (as_ranks s) me = Some r /\ ar_buf r = after
    else received x me (rb me) after.
