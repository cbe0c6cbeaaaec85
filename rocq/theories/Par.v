(* Parallel programs: ranks that issue MPI collective operations and act on a
   shared file system, under every interleaving. *)
From Coq.Strings Require Import Byte String.
From Coq Require Import List ZArith Bool.
From Verif Require Import Base FS Attr Block.
Import ListNotations.
Open Scope Z_scope.

(* A communicator: its identity and the world ranks of its members, in order.
   Identities of communicators made by MPI_Comm_split are the parent's
   identity, the number of calls made on the parent before, and the colour. *)
Record comm : Type := mkComm { c_id : list (nat * Z); c_mem : list nat }.
Definition comm_dec (a b : comm) : {a = b} + {a <> b}.
Proof. decide equality; apply list_eq_dec; repeat decide equality. Defined.

Inductive rop : Type := RMax | RMin | RSum | RLor.
Inductive ctype : Type := CInt | CUint | CLong.

(* What a rank receives. VCode: return code and handle. *)
Inductive val : Type :=
| VNone
| VZs (l : list Z)
| VB (l : bytes)
| VBs (l : list bytes)
| VComm (c : comm)
| VCode (rc : Z) (b : block).

(* The collective operations used, with the arguments of this rank. KBcast
   carries the number of bytes, and the data at the root; KGatherv the local
   data and, at the root, the expected lengths; KScatterv the expected local
   length and, at the root, the pieces. *)
Inductive call : Type :=
| KBarrier
| KAllreduce (t : ctype) (op : rop) (v : list Z)
| KReduce (t : ctype) (op : rop) (root : nat) (v : list Z)
| KBcast (root : nat) (n : Z) (v : val)
| KAllgather (t : ctype) (v : Z)
| KGatherv (root : nat) (v : bytes) (lens : list Z)
| KScatterv (root : nat) (v : list bytes) (len : Z)
| KSplit (color key : Z).

(* A program of one rank. Io is one atomic action on the shared files. *)
Inductive prog (A : Type) : Type :=
| Done (a : A)
| Fail (w : ub)
| Coll (c : comm) (x : call) (k : val -> prog A)
| Io (o : fs -> out (val * fs)) (k : val -> prog A).
Arguments Done {A} a.
Arguments Fail {A} w.
Arguments Coll {A} c x k.
Arguments Io {A} o k.

(* Composition, with the rest of the program as an argument. *)
Definition M (B : Type) : Type := forall A, (B -> prog A) -> prog A.
Definition mret {B} (b : B) : M B := fun A k => k b.
Definition mbind {B C} (m : M B) (h : B -> M C) : M C := fun A k => m A (fun b => h b A k).
Definition mfail {B} (w : ub) : M B := fun A _ => Fail w.
Definition mcoll (c : comm) (x : call) : M val := fun A k => Coll c x k.
Definition mio (o : fs -> out (val * fs)) : M val := fun A k => Io o k.
Declare Scope prog_scope.
Delimit Scope prog_scope with prog.
Notation "x <- e ;; f" := (mbind e (fun x => f))
  (at level 61, e at next level, right associativity) : prog_scope.
Notation "' p <- e ;; f" := (mbind e (fun p => f))
  (at level 61, p pattern, e at next level, right associativity) : prog_scope.
(* Local computation. *)
Definition local {B} (x : out B) : M B :=
  match x with Ret a => mret a | Undef w => mfail w | Diverge => mfail AbortCall end.
(* The whole program of a rank. *)
Definition whole {B} (m : M B) : prog B := m B Done.

(* ---------------------------------------------------------------------- *)
(* What the operations return.                                              *)
Definition in_range (t : ctype) (z : Z) : bool :=
  match t with
  | CInt => (- 2 ^ 31 <=? z) && (z <? 2 ^ 31)
  | CUint => (0 <=? z) && (z <? 2 ^ 32)
  | CLong => (- 2 ^ 63 <=? z) && (z <? 2 ^ 63)
  end.
(* The reduction of one component. A sum that leaves a signed type is
   undefined: None. *)
Definition reduce1 (t : ctype) (op : rop) (l : list Z) : option Z :=
  match op with
  | RMax => Some (match l with [] => 0 | x :: r => fold_left Z.max r x end)
  | RMin => Some (match l with [] => 0 | x :: r => fold_left Z.min r x end)
  | RSum => match t with
            | CUint => Some (u32 (zsum l))
            | _ => if in_range t (zsum l) then Some (zsum l) else None
            end
  | RLor => Some (if existsb (fun z => negb (z =? 0)) l then 1 else 0)
  end.
Fixpoint all_some {A} (l : list (option A)) : option (list A) :=
  match l with
  | [] => Some []
  | None :: _ => None
  | Some x :: r => match all_some r with Some xs => Some (x :: xs) | None => None end
  end.
Definition column (vs : list (list Z)) (j : nat) : list Z := map (fun v => nth j v 0) vs.
Definition reduce (t : ctype) (op : rop) (n : nat) (vs : list (list Z)) : option (list Z) :=
  all_some (map (fun j => reduce1 t op (column vs j)) (seq 0 n)).

(* Position of a rank in a communicator. *)
Fixpoint index (l : list nat) (i : nat) : nat :=
  match l with
  | [] => O
  | j :: r => if (j =? i)%nat then O else S (index r i)
  end.
(* Members of the communicator split off with a colour: in the order of their
   keys, equal keys in the old order. ms: member, colour, key. *)
Fixpoint insert_key (x : nat * Z) (l : list (nat * Z)) : list (nat * Z) :=
  match l with
  | [] => [x]
  | y :: r => if snd x <? snd y then x :: y :: r else y :: insert_key x r
  end.
Definition split_members (color : Z) (ms : list (nat * Z * Z)) : list nat :=
  map fst (fold_left (fun acc m => let '(i, col, key) := m in
                        if col =? color then insert_key (i, key) acc else acc) ms []).

(* The contributions of all members, if they all made the given kind of call. *)
Definition gather {A} (sel : call -> option A) (l : list nat) (get : nat -> option call) : option (list A) :=
  all_some (map (fun j => match get j with Some x => sel x | None => None end) l).
Definition sel_barrier (x : call) : option unit := match x with KBarrier => Some tt | _ => None end.
Definition sel_allreduce (x : call) : option (list Z) := match x with KAllreduce _ _ v => Some v | _ => None end.
Definition sel_reduce (x : call) : option (list Z) := match x with KReduce _ _ _ v => Some v | _ => None end.
Definition sel_allgather (x : call) : option Z := match x with KAllgather _ v => Some v | _ => None end.
Definition sel_gatherv (x : call) : option bytes := match x with KGatherv _ v _ => Some v | _ => None end.
Definition sel_split (x : call) : option (Z * Z) := match x with KSplit c k => Some (c, k) | _ => None end.

(* What the n-th operation on c gives to member i, if enough members have
   started it: get j is the n-th call of member j on c. MPI lets a rank leave
   an operation as soon as it has what it needs: the root of a broadcast does
   not wait for the others, the others do not wait for each other. *)
Definition reply (c : comm) (n : nat) (get : nat -> option call) (i : nat) : option val :=
  match get i with
  | None => None
  | Some KBarrier => match gather sel_barrier (c_mem c) get with Some _ => Some VNone | None => None end
  | Some (KAllreduce t op v) =>
      match gather sel_allreduce (c_mem c) get with
      | Some vs => match reduce t op (length v) vs with Some r => Some (VZs r) | None => None end
      | None => None
      end
  | Some (KReduce t op root v) =>
      if (index (c_mem c) i =? root)%nat
      then match gather sel_reduce (c_mem c) get with
           | Some vs => match reduce t op (length v) vs with Some r => Some (VZs r) | None => None end
           | None => None
           end
      else Some VNone
  | Some (KBcast root _ v) =>
      if (index (c_mem c) i =? root)%nat then Some v
      else match nth_error (c_mem c) root with
           | Some j => match get j with Some (KBcast _ _ v') => Some v' | _ => None end
           | None => None
           end
  | Some (KAllgather _ v) =>
      match gather sel_allgather (c_mem c) get with Some vs => Some (VZs vs) | None => None end
  | Some (KGatherv root v lens) =>
      if (index (c_mem c) i =? root)%nat
      then match gather sel_gatherv (c_mem c) get with
           | Some vs => if list_eq_dec Z.eq_dec (map zlen vs) lens then Some (VBs vs) else None
           | None => None
           end
      else Some VNone
  | Some (KScatterv root _ len) =>
      match nth_error (c_mem c) root with
      | Some j => match get j with
                  | Some (KScatterv _ ps _) =>
                      match nth_error ps (index (c_mem c) i) with
                      | Some p => if zlen p =? len then Some (VB p) else None
                      | None => None
                      end
                  | _ => None
                  end
      | None => None
      end
  | Some (KSplit color key) =>
      match gather sel_split (c_mem c) get with
      | Some vs =>
          Some (VComm (mkComm (c_id c ++ [(n, color)])
            (split_members color (map (fun '(j, (col, k)) => (j, col, k)) (combine (c_mem c) vs)))))
      | None => None
      end
  end.

(* Two calls may be the same collective operation. *)
Definition compat (x y : call) : Prop :=
  match x, y with
  | KBarrier, KBarrier => True
  | KAllreduce t op v, KAllreduce t' op' v' => t = t' /\ op = op' /\ length v = length v'
  | KReduce t op r v, KReduce t' op' r' v' => t = t' /\ op = op' /\ r = r' /\ length v = length v'
  | KBcast r n _, KBcast r' n' _ => r = r' /\ n = n'
  | KAllgather t _, KAllgather t' _ => t = t'
  | KGatherv r _ _, KGatherv r' _ _ => r = r'
  | KScatterv r _ _, KScatterv r' _ _ => r = r'
  | KSplit _ _, KSplit _ _ => True
  | _, _ => False
  end.

(* ---------------------------------------------------------------------- *)
(* The machine.                                                             *)

(* Programs of the ranks; whether a rank has started its current collective
   operation; the calls each rank has made on each communicator; the files. *)
Record config (A : Type) : Type := mkConfig {
  g_ps : nat -> prog A;
  g_wait : nat -> bool;
  g_posts : comm -> nat -> list call;
  g_fs : fs
}.
Arguments mkConfig {A}.
Arguments g_ps {A}.
Arguments g_wait {A}.
Arguments g_posts {A}.
Arguments g_fs {A}.

(* Everything but rank i is as before. *)
Definition others {A} (i : nat) (s s' : config A) : Prop :=
  (forall j, j <> i -> g_ps s' j = g_ps s j) /\
  (forall j, j <> i -> g_wait s' j = g_wait s j) /\
  (forall c j, j <> i -> g_posts s' c j = g_posts s c j).

(* One step of rank i: it starts a collective operation, it leaves one, or it
   performs an action on the files. *)
Inductive step {A} (N : nat) (s : config A) (i : nat) (s' : config A) : Prop :=
| step_start c x k : (i < N)%nat -> g_ps s i = Coll c x k -> g_wait s i = false -> In i (c_mem c) ->
    others i s s' -> g_ps s' i = g_ps s i -> g_wait s' i = true -> g_fs s' = g_fs s ->
    g_posts s' c i = g_posts s c i ++ [x] -> (forall c', c' <> c -> g_posts s' c' i = g_posts s c' i) ->
    step N s i s'
| step_leave c x k n r : (i < N)%nat -> g_ps s i = Coll c x k -> g_wait s i = true -> In i (c_mem c) ->
    length (g_posts s c i) = S n -> reply c n (fun j => nth_error (g_posts s c j) n) i = Some r ->
    others i s s' -> g_ps s' i = k r -> g_wait s' i = false -> g_fs s' = g_fs s ->
    (forall c', g_posts s' c' i = g_posts s c' i) ->
    step N s i s'
| step_io o k r f : (i < N)%nat -> g_ps s i = Io o k -> g_wait s i = false -> o (g_fs s) = Ret (r, f) ->
    others i s s' -> g_ps s' i = k r -> g_wait s' i = false -> g_fs s' = f ->
    (forall c', g_posts s' c' i = g_posts s c' i) ->
    step N s i s'.

(* No rank is in an undefined state or about to do something undefined. *)
Definition safe {A} (N : nat) (s : config A) : Prop :=
  forall i, (i < N)%nat ->
    match g_ps s i with
    | Fail _ => False
    | Io o _ => exists r, o (g_fs s) = Ret r
    | Coll c _ _ => In i (c_mem c)
    | Done _ => True
    end.
(* The members of each communicator have made the same operations on it. *)
Definition matched {A} (s : config A) : Prop :=
  forall c i j, In i (c_mem c) -> In j (c_mem c) ->
    length (g_posts s c i) = length (g_posts s c j) /\
    forall n x y, nth_error (g_posts s c i) n = Some x -> nth_error (g_posts s c j) n = Some y -> compat x y.

(* Under every schedule all ranks finish, without deadlock, undefined
   behaviour or mismatched operations, in a state that satisfies P. *)
Inductive ends {A} (N : nat) (P : (nat -> A) -> config A -> Prop) (s : config A) : Prop :=
| ends_done res : (forall i, (i < N)%nat -> g_ps s i = Done (res i)) -> matched s -> P res s -> ends N P s
| ends_step : safe N s -> (exists i s', step N s i s') -> (forall i s', step N s i s' -> ends N P s') -> ends N P s.
