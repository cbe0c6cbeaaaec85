(* The scripts bigfile-rename, bigfile-rm and bigfile-repartition, and the
   commands mv and rm they run.
   Not modelled: the -h option of the scripts; word splitting and patterns in
   names (names are taken as they are); messages; symbolic links, permissions
   and ".." as everywhere. *)
From Coq.Strings Require Import Byte String.
From Coq Require Import List ZArith Bool.
From Verif Require Import Base FS Attr Block File Util.
Import ListNotations.
Open Scope Z_scope.
Local Open Scope out_scope.

(* What is left of q after p, if q begins with p. *)
Fixpoint strip (p q : path) : option path :=
  match p, q with
  | [], _ => Some q
  | x :: p', y :: q' => if bytes_eqb x y then strip p' q' else None
  | _ :: _, [] => None
  end.
Definition inside (p q : path) : bool := match strip p q with Some _ => true | None => false end.

(* rename(2): the entry s and all that is in it is called t. *)
Definition fs_move (f : fs) (s t : path) : fs :=
  map (fun '(q, n) => (match strip s q with Some r => t ++ r | None => q end, n)) f.
(* An entry and all that is in it is removed. *)
Definition fs_rm (f : fs) (p : path) : fs := filter (fun '(q, _) => negb (inside p q)) f.

(* Something is in the directory p. *)
Definition occupied (f : fs) (p : path) : bool :=
  existsb (fun '(q, _) => match strip p q with Some (_ :: _) => true | _ => false end) f.

(* The last component of the name is "." (mv and rm refuse it), or there is no
   last component. *)
Definition no_last (s : bytes) : bool :=
  bytes_eqb (last (split_slash [] s) []) (lit ".") ||
  match resolve s with [] => true | [c] => bytes_eqb c (lit "/") | _ => false end.

(* mv(1) with two arguments: exit code and files. If the second is a directory
   the first is moved into it. A file replaces a file and a directory an empty
   directory; a directory cannot be moved into itself. Not modelled: a slash at
   the end of a name. *)
Definition mv (f : fs) (src dst : bytes) : Z * fs :=
  let s := resolve src in
  let t := if is_dir f (resolve dst) then resolve dst ++ [last s []] else resolve dst in
  if no_last src then (1, f) else
  if inside s t then (1, f) else
  match fs_get f s, fs_get f t with
  | None, _ => (1, f)
  | Some _, None => if is_dir f (parent t) then (0, fs_move f s t) else (1, f)
  | Some (File _), Some (File _) => (0, fs_move (fs_rm f t) s t)
  | Some Dir, Some Dir => if occupied f t then (1, f) else (0, fs_move (fs_rm f t) s t)
  | _, _ => (1, f)
  end.

(* rm -r with one argument. *)
Definition rm_r (f : fs) (name : bytes) : Z * fs :=
  if no_last name then (1, f) else
  match fs_get f (resolve name) with
  | None => (1, f)
  | Some _ => (0, fs_rm f (resolve name))
  end.

(* utils/bigfile-rename:12-14 *)
Definition bigfile_rename (f : fs) (path blk new : bytes) : Z * fs :=
  mv f (path ++ lit "/" ++ blk) (path ++ lit "/" ++ new).

(* utils/bigfile-rm:12-16: the exit code is that of the last rm. *)
Definition bigfile_rm (f : fs) (path : bytes) (blks : list bytes) : Z * fs :=
  fold_left (fun '(_, f) b => rm_r f (path ++ lit "/" ++ b)) blks (0, f).

(* utils/bigfile-repartition:13-53. The blocks are treated by parallel
   subshells, each of which runs three commands one after the other and stops
   at the first that fails. One command of one subshell: the commands of
   different blocks are interleaved, each taken as one step (a simplification
   for bigfile-copy, which takes many). If -v is not given, VERBOSE is "0"
   (line 13), and bigfile-copy gets one argument too many (line 41): it prints
   its usage and exits with 1 (bigfile-copy.c:9-13, 42-44). *)
Definition bak (blk : bytes) : bytes := blk ++ lit "-REPBAK".
Definition repart_cmd (e : env) (verbose : bool) (f : fs) (path : bytes) (Nfile : Z) (blk : bytes) (cmd : nat)
    (fuel : nat) : out (Z * fs) :=
  match cmd with
  | 0%nat => Ret (bigfile_rename f path blk (bak blk))
  | 1%nat => if verbose then bigfile_copy e f path path (bak blk) blk Nfile (256 * 1024 * 1024) fuel else Ret (1, f)
  | _ => Ret (bigfile_rm f path [bak blk])
  end.

(* A subshell has done this many commands, or has stopped. *)
Inductive stage : Type := At (cmd : nat) | Stopped.
Definition stage_step (e : env) (verbose : bool) (path : bytes) (Nfile : Z) (blk : bytes) (fuel : nat)
    (st : stage) (f : fs) : out (stage * fs) :=
  match st with
  | Stopped => Ret (Stopped, f)
  | At cmd =>
      if (3 <=? cmd)%nat then Ret (At cmd, f) else
      '(rc, f) <- repart_cmd e verbose f path Nfile blk cmd fuel ;;
      Ret (if rc =? 0 then At (S cmd) else Stopped, f)
  end.

(* A schedule tells which subshell runs its next command. *)
Fixpoint update {A} (l : list A) (i : nat) (x : A) : list A :=
  match l, i with
  | [], _ => []
  | _ :: l, 0%nat => x :: l
  | y :: l, S i => y :: update l i x
  end.
Fixpoint repart_run (e : env) (verbose : bool) (path : bytes) (Nfile : Z) (blks : list bytes) (fuel : nat)
    (sched : list nat) (sts : list stage) (f : fs) : out (list stage * fs) :=
  match sched with
  | [] => Ret (sts, f)
  | k :: sched =>
      match nth_error blks k, nth_error sts k with
      | Some blk, Some st =>
          '(st, f) <- stage_step e verbose path Nfile blk fuel st f ;;
          repart_run e verbose path Nfile blks fuel sched (update sts k st) f
      | _, _ => repart_run e verbose path Nfile blks fuel sched sts f
      end
  end.

(* The script as a whole: all subshells from the start; it waits for all of
   them and exits with 0 whatever they did (lines 50-53). *)
Definition bigfile_repartition (e : env) (verbose : bool) (f : fs) (path : bytes) (Nfile : Z) (blks : list bytes)
    (fuel : nat) (sched : list nat) : out (list stage * fs) :=
  repart_run e verbose path Nfile blks fuel sched (map (fun _ => At 0) blks) f.
