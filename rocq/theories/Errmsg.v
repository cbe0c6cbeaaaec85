(* Error messages: formatting (_big_file_raise) and installation
   (big_file_set_error_message) by several threads. *)
From Coq.Strings Require Import Byte String.
From Coq Require Import List ZArith Lia Bool.
From Verif Require Import Base Dtype Fmt Block.
Import ListNotations.
Open Scope Z_scope.
Local Open Scope out_scope.

(* ------------------------------------------------------------------ *)
(* Variable arguments of _big_file_raise: strings, int, and the 64-bit
   integers printed with %td and %ld. *)
Inductive varg : Type :=
| AStr (s : bytes)
| AInt (z : Z)
| ALong (z : Z).

(* vsprintf on the directives used by the library: %s %d %td %ld %%
   (bigfile.c, bigfile-mpi.c, bigfile-record.c: every RAISE and RAISEIF).
   A directive without an argument, or with one of another type, is undefined
   behaviour (C11 7.21.6.1p9).  Simplification: all other directives are
   treated as undefined too. Surplus arguments are ignored. *)
Fixpoint vformat (fmt : bytes) (args : list varg) : out bytes :=
  match fmt with
  | [] => Ret []
  | "%"%byte :: "%"%byte :: r => t <- vformat r args ;; Ret ("%"%byte :: t)
  | "%"%byte :: "s"%byte :: r =>
      match args with
      | AStr s :: args' => t <- vformat r args' ;; Ret (s ++ t)
      | _ => Undef OOB
      end
  | "%"%byte :: "d"%byte :: r =>
      match args with
      | AInt z :: args' => t <- vformat r args' ;; Ret (print_signed z ++ t)
      | _ => Undef OOB
      end
  | "%"%byte :: "t"%byte :: "d"%byte :: r =>
      match args with
      | ALong z :: args' => t <- vformat r args' ;; Ret (print_signed z ++ t)
      | _ => Undef OOB
      end
  | "%"%byte :: "l"%byte :: "d"%byte :: r =>
      match args with
      | ALong z :: args' => t <- vformat r args' ;; Ret (print_signed z ++ t)
      | _ => Undef OOB
      end
  | "%"%byte :: _ => Undef OOB
  | c :: r => t <- vformat r args ;; Ret (c :: t)
  end.

(* bigfile.c:156-180 _big_file_raise. cur is the installed message (ERRORSTR),
   msg the format or None for NULL, file and line the place in the source.
   The result is the message installed by big_file_set_error_message (103-124),
   which copies it with _strdup. The terminating NUL counts in both buffers of
   len bytes. Not modelled: failure of malloc and of alloca. *)
Definition raise (cur msg : option bytes) (file : bytes) (line : Z) (args : list varg) : out bytes :=
  let m := match msg with
           | Some m => m
           | None => match cur with Some m => m | None => lit "UNKNOWN ERROR" end
           end in
  let len := zlen m + zlen file + 512 in
  let fmtstr := m ++ lit " @(" ++ file ++ lit ":" ++ print_signed line ++ lit ")" in
  if len <? zlen fmtstr + 1 then Undef OOB else
  errorstr <- vformat fmtstr args ;;
  if len <? zlen errorstr + 1 then Undef OOB else
  Ret (strdup errorstr).

(* The way up: each caller raises again with a NULL format (RAISEIF(..., ex, NULL))
   and no arguments. *)
Fixpoint reraise (cur : bytes) (places : list (bytes * Z)) : out bytes :=
  match places with
  | [] => Ret cur
  | (file, line) :: rest => m <- raise (Some cur) None file line [] ;; reraise m rest
  end.

(* bigfile.c:1932-1935: the message of _big_file_open_a_file *)
Definition fmt_open : bytes := lit "Failed to open physical file `%s' with mode `%s' (%s)".

(* bigfile.c:330-336 _big_block_open of a block without a header file: the open
   of the header raises (1932), _big_block_open raises again (334).
   err is strerror(errno), l1 and l2 the two line numbers. *)
Definition open_no_header (cur : option bytes) (base err file : bytes) (l1 l2 : Z) : out bytes :=
  m <- raise cur (Some fmt_open) file l1 [AStr (path_join base (lit "header")); AStr (lit "r"); AStr err] ;;
  raise (Some m) None file l2 [].

(* ------------------------------------------------------------------ *)
(* Threads. An allocated message is named by a number never used before (the
   address may be reused by malloc; the program only compares it with NULL). *)
Definition mid := nat.
(* What a thread calls: big_file_set_error_message, or
   big_file_get_error_message followed by a use of the returned text. *)
Inductive ecall : Type :=
| CSet (msg : option bytes)
| CRead.
(* Where a thread is inside big_file_set_error_message (bigfile.c:103-124) or
   between taking the pointer and using it. *)
Inductive epc : Type :=
| Out
| Copied (msg : option bytes) (p : option mid)      (* after line 107 *)
| Loaded (p old : option mid)    (* between 118 and 119 (no atomics) *)
| Taken (old : option mid)       (* before line 124 *)
| Held (p : option mid).         (* after 99-101, before the use *)
Record thread := mkThread { th_pc : epc; th_todo : list ecall }.

(* e_live: the allocated copies; e_cur: ERRORSTR; e_freed: the copies freed so
   far, newest first. Ghost: e_log, the messages in the order in which they
   were installed, newest first; e_seen, the texts used by readers. *)
Record estate := mkE {
  e_live : list (mid * bytes);
  e_next : mid;
  e_cur : option mid;
  e_freed : list mid;
  e_log : list (option bytes);
  e_seen : list (option bytes);
  e_threads : list thread
}.

Definition find_msg (l : list (mid * bytes)) (a : mid) : option bytes :=
  match find (fun x => Nat.eqb (fst x) a) l with Some (_, m) => Some m | None => None end.
Fixpoint set_nth {A} (n : nat) (x : A) (l : list A) : list A :=
  match l, n with
  | [], _ => []
  | _ :: r, O => x :: r
  | y :: r, S k => y :: set_nth k x r
  end.
Definition with_thread (s : estate) (i : nat) (t : thread) : estate :=
  mkE (e_live s) (e_next s) (e_cur s) (e_freed s) (e_log s) (e_seen s) (set_nth i t (e_threads s)).

(* One step of thread i; a thread that has finished stays as it is. atomic:
   lines 109-116 (one exchange) or the fallback 118-119 (a load, then a store). *)
Definition estep (atomic : bool) (s : estate) (i : nat) : out estate :=
  match nth_error (e_threads s) i with
  | None => Ret s
  | Some t =>
      match th_pc t with
      | Out =>
          match th_todo t with
          | [] => Ret s
          (* 107: strdup, a fresh private copy *)
          | CSet (Some m) :: r =>
              Ret (with_thread (mkE ((e_next s, strdup m) :: e_live s) (S (e_next s)) (e_cur s)
                                    (e_freed s) (e_log s) (e_seen s) (e_threads s)) i
                               (mkThread (Copied (Some m) (Some (e_next s))) r))
          | CSet None :: r => Ret (with_thread s i (mkThread (Copied None None) r))
          (* 99-101 *)
          | CRead :: r => Ret (with_thread s i (mkThread (Held (e_cur s)) r))
          end
      | Copied m p =>
          if atomic then
            Ret (with_thread (mkE (e_live s) (e_next s) p (e_freed s) (m :: e_log s) (e_seen s) (e_threads s)) i
                             (mkThread (Taken (e_cur s)) (th_todo t)))
          else
            Ret (with_thread s i (mkThread (Loaded p (e_cur s)) (th_todo t)))
      | Loaded p old =>
          Ret (with_thread (mkE (e_live s) (e_next s) p (e_freed s) (e_log s) (e_seen s) (e_threads s)) i
                           (mkThread (Taken old) (th_todo t)))
      (* 124: free *)
      | Taken None => Ret (with_thread s i (mkThread Out (th_todo t)))
      | Taken (Some a) =>
          match find_msg (e_live s) a with
          | None => Undef OOB
          | Some _ =>
              Ret (with_thread (mkE (filter (fun x => negb (Nat.eqb (fst x) a)) (e_live s)) (e_next s) (e_cur s)
                                    (a :: e_freed s) (e_log s) (e_seen s) (e_threads s)) i
                               (mkThread Out (th_todo t)))
          end
      (* a use of the text obtained *)
      | Held None =>
          Ret (with_thread (mkE (e_live s) (e_next s) (e_cur s) (e_freed s) (e_log s) (None :: e_seen s) (e_threads s)) i
                           (mkThread Out (th_todo t)))
      | Held (Some a) =>
          match find_msg (e_live s) a with
          | None => Undef OOB
          | Some m =>
              Ret (with_thread (mkE (e_live s) (e_next s) (e_cur s) (e_freed s) (e_log s) (Some m :: e_seen s) (e_threads s)) i
                               (mkThread Out (th_todo t)))
          end
      end
  end.

(* A schedule names the thread that takes each step. *)
Fixpoint erun (atomic : bool) (s : estate) (sched : list nat) : out estate :=
  match sched with
  | [] => Ret s
  | i :: r => s' <- estep atomic s i ;; erun atomic s' r
  end.

(* bigfile.c:30-32 ERRORSTR starts as NULL; each thread has its list of calls. *)
Definition estart (calls : list (list ecall)) : estate :=
  mkE [] 0%nat None [] [] [] (map (mkThread Out) calls).
