(* The collective interface: bigfile-mpi.c and the parts of mp-mpiu.c it uses. *)
From Coq.Strings Require Import Byte String.
From Coq Require Import List ZArith Bool.
From Verif Require Import Base Dtype Cast Array FS Fmt Attr Block File Pack Par.
Import ListNotations.
Open Scope Z_scope.
Local Open Scope prog_scope.

(* ---------------------------------------------------------------------- *)
(* The MPI calls. me is the world rank of the caller.                       *)
Definition rank_in (c : comm) (me : nat) : nat := index (c_mem c) me.
Definition ntask (c : comm) : Z := zlen (c_mem c).

Definition one (v : val) : M Z := match v with VZs [z] => mret z | _ => mfail UninitRead end.
Definition many (v : val) : M (list Z) := match v with VZs l => mret l | _ => mfail UninitRead end.
Definition data (v : val) : M bytes := match v with VB l => mret l | _ => mfail UninitRead end.
Definition subcomm (v : val) : M comm := match v with VComm c => mret c | _ => mfail UninitRead end.

Definition barrier (c : comm) : M val := mcoll c KBarrier.
Definition allreduce (c : comm) (t : ctype) (op : rop) (z : Z) : M Z :=
  v <- mcoll c (KAllreduce t op [z]) ;; one v.
Definition bcast_int (c : comm) (root : nat) (n z : Z) : M Z := v <- mcoll c (KBcast root n (VZs [z])) ;; one v.
Definition bcast_bytes (c : comm) (root : nat) (n : Z) (l : bytes) : M bytes :=
  v <- mcoll c (KBcast root n (VB l)) ;; data v.
Definition allgather (c : comm) (t : ctype) (z : Z) : M (list Z) := v <- mcoll c (KAllgather t z) ;; many v.
Definition split (c : comm) (color key : Z) : M comm := v <- mcoll c (KSplit color key) ;; subcomm v.

(* bigfile-mpi.c:317-357 big_file_mpi_broadcast_anyerror: the code and the
   error message each rank is left with. msg is the message this rank holds;
   it is the one set by the failing call if rt is not 0. *)
Definition anyerror (c : comm) (me : nat) (rt : Z) (msg : bytes) : M (Z * bytes) :=
  let rank := rank_in c me in
  root <- allreduce c CInt RMax (if rt =? 0 then 0 else Z.of_nat rank + 1) ;;
  if root =? 0 then mret (0, msg) else
  let root := Z.to_nat (root - 1) in
  errorlen <- bcast_int c root 4 (zlen msg) ;;
  error <- bcast_bytes c root (errorlen + 1) msg ;;
  let msg := if (rank =? root)%nat then msg else error in
  rt <- bcast_int c root 4 rt ;;
  mret (rt, msg).
(* bigfile-mpi.c:14-20 BCAST_AND_RAISEIF and the other uses of the code. The
   text of messages is not followed further. *)
Definition agree (c : comm) (me : nat) (rt : Z) : M Z := '(r, _) <- anyerror c me rt [] ;; mret r.

(* mp-mpiu.c:242-269 MPIU_GetLoc, for integers *)
Definition getloc (c : comm) (me : nat) (t : ctype) (op : rop) (v : Z) : M Z :=
  tmp <- allreduce c t op v ;;
  allreduce c CInt RMin (if v =? tmp then Z.of_nat (rank_in c me) else ntask c).

(* ---------------------------------------------------------------------- *)
(* mp-mpiu.c:351-425: dividing the ranks into segments.                     *)

(* mp-mpiu.c:351-392 _MPIU_Segmenter_assign_colors, the loop: colour of each
   rank, and lastcolor. *)
Fixpoint color_loop (limit : Z) (sizes sizes2 : list Z) (cur cur2 color last : Z) : list Z * Z :=
  match sizes, sizes2 with
  | s :: r, s2 :: r2 =>
      let cur := u64 (cur + s) in
      let cur2 := u64 (cur2 + s2) in
      let '(l, last') :=
        if (limit <? cur) || (limit <? cur2) then color_loop limit r r2 0 0 (color + 1) color
        else color_loop limit r r2 cur cur2 color color in
      (color :: l, last')
  | _, _ => ([], last)
  end.
Definition assign_colors (limit : Z) (sizes sizes2 : list Z) (rank : nat) : Z * Z :=
  let '(l, last) := color_loop limit sizes sizes2 0 0 0 0 in
  (if (nth rank sizes 0 =? 0) && (nth rank sizes2 0 =? 0) then -1 else nth rank l (-1), last + 1).

(* mp-mpiu.c:394-425 MPIU_Segmenter_collect_sizes: total, sizes, offset *)
Definition collect_sizes (c : comm) (me : nat) (localsize : Z) : M (Z * list Z * Z) :=
  total <- allreduce c CLong RSum localsize ;;
  sizes <- allgather c CLong localsize ;;
  mret (total, sizes, u64 (zsum (firstn (rank_in c me) sizes))).

(* mp-mpiu.h:60-77 MPIU_Segmenter, the members used by bigfile-mpi.c *)
Record segmenter : Type := mkSeg {
  sg_seg : Z;
  sg_start : Z;
  sg_end : Z;
  sg_leader : Z;
  sg_group : comm;
  sg_segment : comm
}.
(* mp-mpiu.c:360-381, 438-446: segment and group of a rank *)
Definition place (n : Z) (sizes sizes2 : list Z) (limit ngroup : Z) (rank : nat) : Z * Z :=
  let '(color, ncolor) := assign_colors limit sizes sizes2 rank in
  if 0 <=? color then (color, u64 (color * ngroup) / ncolor) else (n + 1, ngroup + 1).
(* mp-mpiu.c:427-475 MPIU_Segmenter_init *)
Definition segmenter_init (c : comm) (me : nat) (sizes sizes2 : list Z) (limit ngroup : Z) : M segmenter :=
  let rank := rank_in c me in
  let key := Z.of_nat rank in
  let '(seg, gid) := place (ntask c) sizes sizes2 limit ngroup rank in
  group <- split c gid key ;;
  first <- allreduce group CInt RMin seg ;;
  last <- allreduce group CInt RMax seg ;;
  leader <- getloc group me CLong RMax (nth rank sizes 0) ;;
  _ <- split c (if Z.of_nat (rank_in group me) =? leader then 0 else 1) key ;;
  segment <- split group seg key ;;
  sl <- getloc segment me CLong RMin (nth rank sizes 0) ;;
  mret (mkSeg seg first (last + 1) sl group segment).

(* ---------------------------------------------------------------------- *)
(* Reading and writing with each access to a file a separate step.          *)
Definition op_write (p : path) (pos : nat) (l : bytes) (f : fs) : out (val * fs) :=
  match fopen_rp f p with
  | None => Ret (VNone, f)
  | Some cont => Ret (VZs [], fs_set f p (File (pwrite cont pos l)))
  end.
Definition op_read (p : path) (pos n : nat) (f : fs) : out (val * fs) :=
  match fopen_r f p with
  | None => Ret (VNone, f)
  | Some oc => Ret (VB (match oc with Some cont => pread cont pos n | None => [] end), f)
  end.

(* bigfile.c:918-959, as write_loop *)
Fixpoint wloop (e : env) (b : block) (p : bptr) (cb : mem) (ca : array)
    (um : mem) (ai : iter) (cs towrite : Z) (fuel : nat) : M (Z * block * bptr * mem) :=
  match fuel with
  | O => mfail AbortCall
  | S k =>
      if negb (0 <? towrite) then mret (0, b, p, um) else
      eof <- local (big_block_eof b p) ;;
      if (eof : bool) then mret (0, b, p, um) else
      c <- local (next_chunk b p cs towrite) ;;
      '(rc, cb1, _, um1, ai1) <-
        local (dtype_convert (e_me e) cb (iter_init (e_me e) ca) um ai (Z.to_nat (c * b_nmemb b))) ;;
      if negb (rc =? 0) then mret (-1, b, p, um1) else
      l <- local (or_ub OOB (load cb1 0 (Z.to_nat (c * felsize e b)))) ;;
      old <- local (or_ub OOB (znth (b_fchecksum b) (p_fileid p))) ;;
      cks <- local (or_ub OOB (zupd (b_fchecksum b) (p_fileid p) (sysvsum old l))) ;;
      let b1 := set_checksums b cks in
      if p_roffset p * felsize e b <? 0 then mret (-1, b1, p, um1) else
      v <- mio (op_write (data_path (b_base b) (p_fileid p)) (Z.to_nat (p_roffset p * felsize e b)) l) ;;
      match v with
      | VNone => mret (-1, b1, p, um1)
      | _ =>
          '(rc2, p1) <- local (big_block_seek_rel b1 p c) ;;
          if negb (rc2 =? 0) then mret (-1, b1, p1, um1)
          else wloop e b1 p1 cb1 ca um1 ai1 cs (towrite - c) k
      end
  end.
(* bigfile.c:890-975, as big_block_write *)
Definition block_write (e : env) (b : block) (p : bptr) (a : array) (um : mem) : M (Z * block * bptr * mem) :=
  if a_size a =? 0 then mret (0, b, p, um) else
  let b := set_bdirty b true in
  if 2 ^ 31 <=? Z.abs (felsize e b) then mfail IntOverflow else
  if felsize e b =? 0 then mfail DivZero else
  let cs := chunk_rows e b in
  ca <- local (big_array_init (e_me e) 0 (b_dtype b) [cs; b_nmemb b] None) ;;
  let towrite := a_size a / row_nmemb b in
  o <- local (or_ub OOB (znth (b_foffset b) (p_fileid p))) ;;
  if b_size b <? u64 (s64 (o + p_roffset p + towrite)) then mret (-1, b, p, um) else
  wloop e b p (chunk_mem e) ca um (iter_init (e_me e) a) cs towrite (S (Z.to_nat towrite)).

(* bigfile.c:829-875, as read_loop *)
Fixpoint rloop (e : env) (b : block) (p : bptr) (cb : mem) (ca : array)
    (um : mem) (ai : iter) (cs toread : Z) (fuel : nat) : M (Z * bptr * mem) :=
  match fuel with
  | O => mfail AbortCall
  | S k =>
      if negb (0 <? toread) then mret (0, p, um) else
      eof <- local (big_block_eof b p) ;;
      if (eof : bool) then mret (0, p, um) else
      c <- local (next_chunk b p cs toread) ;;
      if c =? 0 then mret (-1, p, um) else
      if p_roffset p * felsize e b <? 0 then mret (-1, p, um) else
      v <- mio (op_read (data_path (b_base b) (p_fileid p)) (Z.to_nat (p_roffset p * felsize e b))
                  (Z.to_nat (c * felsize e b))) ;;
      match v with
      | VB l =>
          cb1 <- local (or_ub OOB (store cb 0 l)) ;;
          if negb (length l =? Z.to_nat (c * felsize e b))%nat then mret (-1, p, um) else
          '(rc, um1, ai1, cb2, _) <-
            local (dtype_convert (e_me e) um ai cb1 (iter_init (e_me e) ca) (Z.to_nat (c * b_nmemb b))) ;;
          if negb (rc =? 0) then mret (-1, p, um1) else
          '(rc2, p1) <- local (big_block_seek_rel b p c) ;;
          if negb (rc2 =? 0) then mret (-1, p1, um1)
          else rloop e b p1 cb2 ca um1 ai1 cs (toread - c) k
      | _ => mret (-1, p, um)
      end
  end.
(* bigfile.c:797-888, as big_block_read *)
Definition block_read (e : env) (b : block) (p : bptr) (a : array) (um : mem) : M (Z * bptr * mem) :=
  if 2 ^ 31 <=? Z.abs (felsize e b) then mfail IntOverflow else
  if felsize e b =? 0 then mfail DivZero else
  let cs := chunk_rows e b in
  ca <- local (big_array_init (e_me e) 0 (b_dtype b) [cs; b_nmemb b] None) ;;
  let toread := a_size a / row_nmemb b in
  o <- local (or_ub OOB (znth (b_foffset b) (p_fileid p))) ;;
  if b_size b <? u64 (s64 (o + p_roffset p + toread)) then mret (-1, p, um) else
  rloop e b p (chunk_mem e) ca um (iter_init (e_me e) a) cs toread (S (Z.to_nat toread)).

(* ---------------------------------------------------------------------- *)
(* bigfile-mpi.c:466-549 _aggregated.                                       *)
Inductive action : Type := AWrite | ARead.

(* Memory from malloc, with indeterminate contents. *)
Definition fresh (e : env) (n : Z) : mem :=
  fun x => if (0 <=? x) && (x <? n) then Some (e_junk e x) else None.
(* Where MPI_Gatherv puts the pieces, and MPI_Scatterv finds them. *)
Fixpoint put_pieces (m : mem) (at_ : Z) (l : list bytes) : option mem :=
  match l with
  | [] => Some m
  | x :: r => match store m at_ x with Some m1 => put_pieces m1 (at_ + zlen x) r | None => None end
  end.
Fixpoint get_pieces (m : mem) (at_ : Z) (lens : list Z) : option (list bytes) :=
  match lens with
  | [] => Some []
  | n :: r => match load m at_ (Z.to_nat n), get_pieces m (at_ + n) r with
              | Some x, Some xs => Some (x :: xs)
              | _, _ => None
              end
  end.
Definition pieces (v : val) : M (list bytes) := match v with VBs l => mret l | _ => mfail UninitRead end.

(* The displacements are computed as ints (bigfile-mpi.c:509-511); beyond the
   range of int they are undefined. The pointer passed is used in copy: ptr1.
   The results of _dtype_convert and big_block_seek_rel are not looked at. *)
Definition aggregated (act : action) (e : env) (c : comm) (me : nat) (root : nat) (b : block) (p : bptr) (offset : Z)
    (localsize : Z) (a : array) (um : mem) : M (Z * block * mem) :=
  let elsize := itemsize (e_me e) (b_dtype b) * b_nmemb b in
  if 2 ^ 31 <=? Z.abs elsize then mfail IntOverflow else
  let rank := rank_in c me in
  counts <- allgather c CInt (s32 localsize) ;;
  total <- allreduce c CInt RSum (s32 localsize) ;;
  if existsb (fun k => negb (in_range CInt (zsum (firstn k counts)))) (seq 0 (S (length counts))) then mfail IntOverflow else
  la <- local (big_array_init (e_me e) 0 (b_dtype b) [localsize; b_nmemb b] None) ;;
  ga <- local (big_array_init (e_me e) 0 (b_dtype b) [total; b_nmemb b] None) ;;
  let lb := fresh e (elsize * localsize) in
  let gb := fresh e (total * elsize) in
  let n := Z.to_nat (localsize * b_nmemb b) in
  let ia := iter_init (e_me e) a in
  let il := iter_init (e_me e) la in
  let lens := map (fun k => k * elsize) counts in
  let mylen := nth rank counts 0 * elsize in
  match act with
  | AWrite =>
      '(_, lb1, _, um1, _) <- local (dtype_convert (e_me e) lb il um ia n) ;;
      mine <- local (or_ub OOB (load lb1 0 (Z.to_nat mylen))) ;;
      v <- mcoll c (KGatherv root mine lens) ;;
      '(rc, b1) <-
        (if (rank =? root)%nat then
           ps <- pieces v ;;
           gb1 <- local (or_ub OOB (put_pieces gb 0 ps)) ;;
           '(_, p1) <- local (big_block_seek_rel b p offset) ;;
           '(rc, b1, _, _) <- block_write e b p1 ga gb1 ;;
           mret (rc, b1)
         else mret (0, b)) ;;
      r <- agree c me rc ;;
      mret (r, b1, um1)
  | ARead =>
      '(rc, out) <-
        (if (rank =? root)%nat then
           '(_, p1) <- local (big_block_seek_rel b p offset) ;;
           '(rc, _, gb1) <- block_read e b p1 ga gb ;;
           ps <- local (or_ub OOB (get_pieces gb1 0 lens)) ;;
           mret (rc, ps)
         else mret (0, [])) ;;
      v <- mcoll c (KScatterv root out (localsize * elsize)) ;;
      mine <- data v ;;
      lb1 <- local (or_ub OOB (store lb 0 mine)) ;;
      '(_, um1, _, _, _) <- local (dtype_convert (e_me e) um ia lb1 il n) ;;
      r <- agree c me rc ;;
      mret (r, b, um1)
  end.

(* bigfile-mpi.c:431-449: the loop over the segments of the group, and its body *)
Definition seg_step (act : action) (e : env) (me : nat) (sg : segmenter) (p : bptr) (myoffset localsize : Z) (a : array)
    (segment : Z) (st : Z * block * mem) : M (Z * block * mem) :=
  let '(rt, b, um) := st in
  _ <- barrier (sg_group sg) ;;
  rt <- agree (sg_group sg) me rt ;;
  if negb (rt =? 0) then mret (rt, b, um) else
  if negb (sg_seg sg =? segment) then mret (rt, b, um) else
  offset <- bcast_int (sg_segment sg) 0 8 myoffset ;;
  aggregated act e (sg_segment sg) me (Z.to_nat (sg_leader sg)) b p offset localsize a um.
Fixpoint segments (act : action) (e : env) (me : nat) (sg : segmenter) (p : bptr) (myoffset localsize : Z) (a : array)
    (segment : Z) (n : nat) (st : Z * block * mem) : M (Z * block * mem) :=
  match n with
  | O => mret st
  | S n' =>
      st <- seg_step act e me sg p myoffset localsize a segment st ;;
      segments act e me sg p myoffset localsize a (segment + 1) n' st
  end.

(* bigfile-mpi.c:397-464 _throttle_action; threshold is _BigFileAggThreshold.
   The code, handle, pointer and memory of this rank. *)
Definition throttle (act : action) (threshold : Z) (e : env) (c : comm) (me : nat) (b : block) (p : bptr)
    (a : array) (um : mem) (concurrency : Z) : M (Z * block * bptr * mem) :=
  let concurrency := if concurrency <=? 0 then ntask c else concurrency in
  localsize <- local (or_ub OOB (znth (a_dims a) 0)) ;;
  '(total, sizes, myoffset) <- collect_sizes c me localsize ;;
  let limit := u64 total / concurrency in
  let limit := if limit <=? 0 then 1 else limit in
  let limit := if threshold <? limit then threshold else limit in
  sg <- segmenter_init c me sizes sizes limit concurrency ;;
  '(rt, b, um) <- segments act e me sg p myoffset localsize a (sg_start sg)
                    (Z.to_nat (sg_end sg - sg_start sg)) (0, b, um) ;;
  rt <- agree c me rt ;;
  if rt =? 0 then
    '(_, p) <- local (big_block_seek_rel b p total) ;;
    mret (rt, b, p, um)
  else mret (rt, b, p, um).
(* bigfile-mpi.c:551-563 *)
Definition mpi_write := throttle AWrite.
Definition mpi_read := throttle ARead.

(* ---------------------------------------------------------------------- *)
(* Opening, creating, growing and flushing. Rank 0 of the communicator does
   its part in one step.                                                    *)
Definition pack_op (o : fs -> out (fs * option block)) (f : fs) : out (val * fs) :=
  bind (o f) (fun r => Ret (match snd r with Some b => VCode 0 b | None => VNone end, fst r)).
Definition op_open (e : env) (base : bytes) : fs -> out (val * fs) :=
  pack_op (fun f => bind (big_block_open e f base) (fun ob => Ret (f, ob))).
Definition op_create_internal (e : env) (base : bytes) (dtype : option bytes) (nmemb Nfile : Z) (fsize : list Z)
    : fs -> out (val * fs) := pack_op (fun f => create_internal e f base dtype nmemb Nfile fsize).
Definition op_flush (e : env) (b : block) (f : fs) : out (val * fs) :=
  bind (big_block_flush e f b) (fun '(rc, f', b') => Ret (VCode rc b', f')).
Definition op_mksubdir (bf blockname : bytes) (f : fs) : out (val * fs) :=
  let '(rc, f') := mksubdir_r f bf blockname in Ret (VZs [rc], f').
(* fopen(.., "w") and fclose *)
Definition op_truncate (p : path) (f : fs) : out (val * fs) :=
  match fopen_w f p with None => Ret (VNone, f) | Some f' => Ret (VZs [], f') end.

(* bigfile-mpi.c:359-384 big_block_mpi_broadcast; nbase is the address malloc
   returns for the attributes at this rank. *)
Definition broadcast (junk : nat -> nat -> byte) (e : env) (c : comm) (me : nat) (root : nat) (nbase : Z) (b : block) : M block :=
  let rank := rank_in c me in
  buf <- (if (rank =? root)%nat then local (block_pack junk (e_me e) b) else mret []) ;;
  n <- bcast_int c root 8 (zlen buf) ;;
  buf <- bcast_bytes c root n buf ;;
  if (rank =? root)%nat then mret b else local (block_unpack (e_me e) nbase buf).

(* A handle that does not exist yet. *)
Definition no_block : block := mkBlock [] 0 [] 0 [] [] [] 0 (attrset_create 0) false.

(* bigfile-mpi.c:200-207, 244-251: this rank's share of the files *)
Fixpoint create_files (base : bytes) (i : Z) (n : nat) : M Z :=
  match n with
  | O => mret 0
  | S n' => v <- mio (op_truncate (data_path base i)) ;;
            match v with VNone => mret (-1) | _ => create_files base (i + 1) n' end
  end.
Definition share (n : Z) (c : comm) (me : nat) : Z * Z :=
  let rank := Z.of_nat (rank_in c me) in (n * rank / ntask c, n * (rank + 1) / ntask c).

(* bigfile-mpi.c:151-169 _big_block_mpi_open *)
Definition mpi_open (junk : nat -> nat -> byte) (e : env) (c : comm) (me : nat) (nbase : Z) (base : bytes) : M (Z * block) :=
  '(rt, b) <- (if (rank_in c me =? 0)%nat then
                 v <- mio (op_open e base) ;;
                 mret (match v with VCode rc b => (rc, b) | _ => (-1, no_block) end)
               else mret (0, no_block)) ;;
  rt <- agree c me rt ;;
  if negb (rt =? 0) then mret (rt, b) else
  b <- broadcast junk e c me 0 nbase b ;;
  mret (0, b).

(* bigfile-mpi.c:170-211 _big_block_mpi_create *)
Definition mpi_create (junk : nat -> nat -> byte) (e : env) (c : comm) (me : nat) (nbase : Z) (base : bytes)
    (dtype : option bytes) (nmemb Nfile : Z) (fsize : list Z) : M (Z * block) :=
  '(rt, b) <- (if (rank_in c me =? 0)%nat then
                 v <- mio (op_create_internal e base dtype nmemb Nfile fsize) ;;
                 mret (match v with VCode rc b => (rc, b) | _ => (-1, no_block) end)
               else mret (0, no_block)) ;;
  rt <- agree c me rt ;;
  if negb (rt =? 0) then mret (rt, b) else
  b <- broadcast junk e c me 0 nbase b ;;
  let '(from, to) := share (b_Nfile b) c me in
  rt <- create_files (b_base b) from (Z.to_nat (to - from)) ;;
  rt <- agree c me rt ;;
  mret (rt, b).
(* bigfile-mpi.c:87-142: the block of a file *)
Definition mpi_block_name (bf blockname : bytes) : bytes := bf ++ lit "/" ++ blockname ++ lit "/".
Definition mpi_open_block (junk : nat -> nat -> byte) (e : env) (c : comm) (me : nat) (nbase : Z) (bf blockname : bytes) : M (Z * block) :=
  mpi_open junk e c me nbase (mpi_block_name bf blockname).
Definition mpi_create_block (junk : nat -> nat -> byte) (e : env) (c : comm) (me : nat) (nbase : Z) (bf blockname : bytes)
    (dtype : option bytes) (nmemb Nfile : Z) (fsize : list Z) : M (Z * block) :=
  rt <- (if (rank_in c me =? 0)%nat then v <- mio (op_mksubdir bf blockname) ;; one v else mret 0) ;;
  rt <- agree c me rt ;;
  if negb (rt =? 0) then mret (rt, no_block) else
  mpi_create junk e c me nbase (mpi_block_name bf blockname) dtype nmemb Nfile fsize.

(* bigfile-mpi.c:213-257 big_block_mpi_grow *)
Definition mpi_grow (junk : nat -> nat -> byte) (e : env) (c : comm) (me : nat) (nbase : Z) (b : block)
    (ngrow : Z) (fsize : list Z) : M (Z * block) :=
  let old := b_Nfile b in
  b <- (if (rank_in c me =? 0)%nat then local (grow_internal b ngrow fsize) else mret b) ;;
  rt <- agree c me 0 ;;
  if negb (rt =? 0) then mret (rt, b) else
  b <- broadcast junk e c me 0 nbase b ;;
  let '(from, to) := share ngrow c me in
  rt <- create_files (b_base b) (from + old) (Z.to_nat (to - from)) ;;
  rt <- agree c me rt ;;
  mret (rt, b).

(* bigfile-mpi.c:275-306 big_block_mpi_flush *)
Definition mpi_flush (junk : nat -> nat -> byte) (e : env) (c : comm) (me : nat) (nbase : Z) (b : block) : M (Z * block) :=
  let n := Z.to_nat (b_Nfile b) in
  sums <- mcoll c (KReduce CUint RSum 0 (firstn n (b_fchecksum b))) ;;
  dirty <- mcoll c (KReduce CInt RLor 0 [if b_dirty b then 1 else 0]) ;;
  '(rt, b) <- (if (rank_in c me =? 0)%nat then
                 sums <- many sums ;;
                 dirty <- one dirty ;;
                 let b := set_checksums (set_bdirty b (negb (dirty =? 0))) (sums ++ skipn n (b_fchecksum b)) in
                 v <- mio (op_flush e b) ;;
                 mret (match v with VCode rc b => (rc, b) | _ => (-1, b) end)
               else mret (0, b)) ;;
  rt <- agree c me rt ;;
  if negb (rt =? 0) then mret (rt, b) else
  b <- broadcast junk e c me 0 nbase b ;;
  mret (0, b).
