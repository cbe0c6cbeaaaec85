(* The files during bigfile-copy-mpi and bigfile-sample-mpi: several processes
   write rows of one new block. The messages between the processes are in
   CopyMpi.v. *)
From Coq.Strings Require Import Byte String.
From Coq Require Import List ZArith Bool.
From Verif Require Import Base Dtype Array FS Attr Block File Split Util MpiSpec.
Import ListNotations.
Open Scope Z_scope.
Local Open Scope out_scope.

(* Rank k has the handle b from now on. *)
Definition upd_rank (bs : nat -> block) (k : nat) (b : block) : nat -> block := fun i => if (i =? k)%nat then b else bs i.

(* The workers process the items l in this order; worker k, of rank k + 1, takes
   the items (k, _). The result tells which items went well. Simplification:
   one item is processed at a time. *)
Fixpoint run_items {X : Type} (item : fs -> block -> X -> out (Z * fs * block)) (f : fs) (bs : nat -> block) (l : list (nat * X))
    : out (list bool * fs * (nat -> block)) :=
  match l with
  | [] => Ret ([], f, bs)
  | (k, x) :: r =>
      '(rc, f, b) <- item f (bs (S k)) x ;;
      '(oks, f, bs) <- run_items item f (upd_rank bs (S k) b) r ;;
      Ret ((rc =? 0) :: oks, f, bs)
  end.

(* utils/bigfile-copy-mpi.c:176-186, bigfile-sample-mpi.c:243-255: seek and
   write; a code other than 0 stands for ERROR_TAG *)
Definition put_item (e : env) (f : fs) (bnew : block) (o : Z) (a : array) (um : mem) : out (Z * fs * block) :=
  '(rc, p) <- big_block_seek bnew (mkPtr 0 0 0) o ;;
  if negb (rc =? 0) then Ret (-1, f, bnew) else
  '(rc, f, bnew, _, _) <- big_block_write e f bnew p a um ;;
  Ret (if rc =? 0 then 0 else -1, f, bnew).

(* utils/bigfile-copy-mpi.c:164-193 slave: one item, chunk rows from offset on *)
Definition copy_item (e : env) (b : block) (f : fs) (bnew : block) (x : Z * Z) : out (Z * fs * block) :=
  '(rc, r) <- big_block_read_simple e f b (fst x) (snd x) None ;;
  match (if rc =? 0 then r else None) with
  | None => Ret (-1, f, bnew)
  | Some (a, um) => put_item e f bnew (fst x) a um
  end.

(* What both programs do around the items: utils/bigfile-copy-mpi.c:66-117,
   bigfile-sample-mpi.c:77-123. newsize computes the size of the new block;
   whole tells that it must be that of the old one (bigfile-copy-mpi.c:91-93).
   sched is what the workers do while the server runs. n is the number of
   workers. Returned: the exit code, the outcomes of the items, the files.
   Simplifications: the collective calls are replaced by their serial
   counterparts, which leave the same files and give all ranks the same handle
   (C44, C60, C65); a zero-length variable length array is
   accepted (Nfile = 0). At the end rank 0 writes the header with the
   checksums of all ranks added (bigfile-mpi.c:284-295, see mpi_flush). *)
Definition share_main {X : Type} (e : env) (f : fs) (path newpath blk newblk : bytes) (Nfile : Z) (whole : bool) (newsize : block -> Z)
    (item : block -> fs -> block -> X -> out (Z * fs * block)) (n : nat) (sched : list (nat * X)) : out (Z * list bool * fs) :=
  match big_file_open f path with
  | None => Ret (1, [], f)
  | Some bf =>
  ob <- big_file_open_block e f bf blk ;;
  match ob with
  | None => Ret (1, [], f)
  | Some b =>
  let Nfile := if (Nfile =? -1) || (b_Nfile b =? 0) then b_Nfile b else Nfile in
  let '(f, ob) := big_file_create f newpath in
  match ob with
  | None => Ret (1, [], f)
  | Some bfnew =>
  if Nfile <? 0 then Undef OOB else
  '(f, ob) <- big_file_create_block e f bfnew newblk (Some (b_dtype b)) (b_nmemb b) Nfile (even_split (newsize b) Nfile) ;;
  match ob with
  | None => Ret (1, [], f)
  | Some bnew =>
  if whole && negb (b_size bnew =? b_size b) then Undef AbortCall else
  bnew <- copy_attrs e bnew (b_attrset b) (as_list (b_attrset b)) ;;
  '(oks, f, bs) <- (if (0 <? b_nmemb b) && (0 <? b_size b) then run_items (item b) f (fun _ => bnew) sched else Ret ([], f, fun _ => bnew)) ;;
  '(rc, f) <- big_block_close e f (merged (S n) bs) ;;
  if negb (rc =? 0) then Ret (1, oks, f) else
  '(_, f) <- big_block_close e f b ;;
  Ret (0, oks, f)
  end end end end.

(* utils/bigfile-copy-mpi.c:35-118 main *)
Definition bigfile_copy_mpi (e : env) (f : fs) (path newpath blk newblk : bytes) (Nfile : Z) (n : nat) (sched : list (nat * (Z * Z))) : out (Z * list bool * fs) :=
  share_main e f path newpath blk newblk Nfile true b_size (copy_item e) n sched.

(* ------------------------------------------------------------------ sampling *)
(* The random numbers of gsl: gsl_rng_set, gsl_rng_get, gsl_ran_poisson with
   mean ratio times the given number, gsl_rng_uniform_int. *)
Record rng := mkRng {
  rg : Type;
  rg_set : Z -> rg;
  rg_get : rg -> Z * rg;
  rg_poisson : rg -> Z -> Z * rg;
  rg_uniform : rg -> Z -> Z * rg
}.
(* utils/bigfile-sample-mpi.c:35-41 struct work *)
Record work := mkWork { k_off : Z; k_seed : Z; k_chunk : Z; k_new : Z; k_nsel : Z }.

(* utils/bigfile-sample-mpi.c:132-151 filesize, 161-188 server: the same loop
   makes the items. K is CHUNKSIZE (29), all tells ratio == 1.0. The fuel is
   the number of rows, each item has one or more. *)
Fixpoint plan_from (G : rng) (all : bool) (K size : Z) (s : rg G) (offset offsetnew : Z) (fuel : nat) : list work :=
  match fuel with
  | O => []
  | S k =>
      if offset <? size then
        let chunk := if size <=? offset + K then size - offset else K in
        let '(seed, s) := rg_get G s in
        let '(nsel, s) := if all then (chunk, s) else rg_poisson G s chunk in
        mkWork offset seed chunk offsetnew nsel :: plan_from G all K size s (offset + chunk) (offsetnew + nsel) k
      else []
  end.
(* 129, 157: gsl_rng_set(rng, 1984) *)
Definition sample_plan (G : rng) (all : bool) (K size : Z) : list work :=
  plan_from G all K size (rg_set G 1984) 0 0 (Z.to_nat size).
(* 127-153 filesize *)
Definition sample_size (G : rng) (all : bool) (K size : Z) : Z := fold_right Z.add 0 (map k_nsel (sample_plan G all K size)).

(* utils/bigfile-sample-mpi.c:231-241: choosing rows. m is the array that was
   read, bm the buffer; p and q are positions in them. Returned: the buffer and
   how many rows are still missing. gsl_rng_uniform_int(rng, 0) ends the
   program. *)
Fixpoint choose (G : rng) (s : rg G) (m bm : mem) (p q nsel leftover step : Z) (n : nat) : out (mem * Z) :=
  match n with
  | O => Ret (bm, nsel)
  | S n =>
      if leftover =? 0 then Undef AbortCall else
      let '(r, s) := rg_uniform G s leftover in
      '(bm, p, nsel) <- (if r <? nsel then
                           row <- or_ub OOB (load m q (Z.to_nat step)) ;;
                           bm <- or_ub OOB (store bm p row) ;;
                           Ret (bm, p + step, nsel - 1)
                         else Ret (bm, p, nsel)) ;;
      if nsel =? 0 then Ret (bm, nsel) else choose G s m bm p (q + step) nsel (leftover - 1) step n
  end.

(* utils/bigfile-sample-mpi.c:204-265 slave: one item. malloc succeeds. *)
Definition sample_work (G : rng) (e : env) (b : block) (f : fs) (bnew : block) (x : work) : out (Z * fs * block) :=
  let step := itemsize (e_me e) (b_dtype b) * b_nmemb b in
  a <- big_array_init (e_me e) 0 (b_dtype b) [k_nsel x; b_nmemb b] None ;;
  '(rc, r) <- big_block_read_simple e f b (k_off x) (k_chunk x) None ;;
  match (if rc =? 0 then r else None) with
  | None => Ret (-1, f, bnew)
  | Some (_, um) =>
      '(bm, rest) <- choose G (rg_set G (k_seed x)) um (malloc_mem 0 (step * k_nsel x)) 0 0 (k_nsel x) (k_chunk x) step (Z.to_nat (k_chunk x)) ;;
      if negb (rest =? 0) then Undef AbortCall else
      put_item e f bnew (k_new x) a bm
  end.
(* The item that the server makes for the rows from offset on: its random
   numbers do not depend on who asks for work. *)
Definition sample_item (G : rng) (all : bool) (K : Z) (e : env) (b : block) (f : fs) (bnew : block) (x : Z * Z) : out (Z * fs * block) :=
  match find (fun y => (k_off y =? fst x) && (k_chunk y =? snd x)) (sample_plan G all K (b_size b)) with
  | Some y => sample_work G e b f bnew y
  | None => Ret (-1, f, bnew)
  end.

(* utils/bigfile-sample-mpi.c:45-124 main *)
Definition bigfile_sample_mpi (G : rng) (all : bool) (K : Z) (e : env) (f : fs) (path newpath blk newblk : bytes) (Nfile : Z) (n : nat) (sched : list (nat * (Z * Z)))
    : out (Z * list bool * fs) :=
  share_main e f path newpath blk newblk Nfile false (fun b => sample_size G all K (b_size b)) (sample_item G all K e) n sched.
