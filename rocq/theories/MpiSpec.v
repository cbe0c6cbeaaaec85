(* Specifications used in the statements about the collective interface. *)
From Coq.Strings Require Import Byte String.
From Coq Require Import List ZArith Lia Bool.
From Verif Require Import Base Dtype Cast Array FS Attr Block Spec Par.
Import ListNotations.
Open Scope Z_scope.

(* ---------------------------------------------------------------------- *)
(* Ranks 0 .. N-1 about to start their programs.                            *)
Definition world (N : nat) : comm := mkComm [] (seq 0 N).
Definition launch {A} (ps : nat -> prog A) (f : fs) : config A :=
  mkConfig ps (fun _ => false) (fun _ _ => []) f.

(* Sum over the ranks, and over the ranks before rank i. *)
Definition total (N : nat) (n : nat -> Z) : Z := zsum (map n (seq 0 N)).
Definition before (n : nat -> Z) (i : nat) : Z := zsum (map n (seq 0 i)).

(* ---------------------------------------------------------------------- *)
(* Handles.                                                                 *)

(* The same handle but for the checksums and the dirty flag, which is set if
   it was set before or if the checksums have changed. *)
Definition like (b b' : block) : Prop := exists cks d, b' = set_checksums (set_bdirty b d) cks /\
  (b_dirty b = true \/ cks <> b_fchecksum b -> d = true).

(* The same files can be opened for writing. *)
Definition same_files (f g : fs) : Prop := forall p, (fopen_rp f p = None <-> fopen_rp g p = None).

(* From f to g at most rows lo .. hi-1 of the block at base have changed: all
   other rows stored in f are still there, and so are all other files and
   directories. *)
Definition spares (base : bytes) (sizes : list Z) (w lo hi : Z) (f g : fs) : Prop :=
  (forall p, (forall i, (i < length sizes)%nat -> p <> data_path base (Z.of_nat i)) -> fs_get g p = fs_get f p) /\
  (forall r v, r < lo \/ hi <= r -> stored_row f base sizes w r = Some v -> stored_row g base sizes w r = Some v).

(* What the ranks have in common when they call a collective read or write:
   handles of the same block (each with its own checksums), pointers at the
   same row o; rank i takes part with n i rows. Buffers may differ. *)
Record coll_ok (N : nat) (me : endian) (e : nat -> env) (b : nat -> block) (p : nat -> bptr) (sizes : list Z) (w : Z) (base dt : bytes) (nm o : Z) (n : nat -> Z) : Prop := {
  co_me : forall i, (i < N)%nat -> e_me (e i) = me;
  co_block : forall i, (i < N)%nat -> wblock (e i) (b i) sizes w;
  co_chunk : forall i, (i < N)%nat -> w <= e_chunk (e i);
  co_base : forall i, (i < N)%nat -> b_base (b i) = base;
  co_dt : forall i, (i < N)%nat -> b_dtype (b i) = dt;
  co_nm : forall i, (i < N)%nat -> b_nmemb (b i) = nm;
  co_ptr : forall i, (i < N)%nat -> ptr_at sizes (p i) o;
  co_w : w < 2 ^ 31;
  co_n : forall i, (i < N)%nat -> 0 <= n i;
  co_end : o + zsum (map n (seq 0 N)) < 2 ^ 63
}.

(* The number of rows gathered by one writer stays below 2^31: either all rows
   together do, or the aggregation threshold plus any rank's rows. *)
Definition segments_small (N : nat) (thr : Z) (n : nat -> Z) : Prop :=
  0 <= thr /\ (total N n < 2 ^ 31 \/ forall i, (i < N)%nat -> thr + n i < 2 ^ 31).

(* ---------------------------------------------------------------------- *)
(* Arrays of the ranks.                                                     *)

(* An array that can take part with n rows of nmemb elements: its first
   dimension is n, and unless n is 0 it is consistent and has the elements. *)
Record takes_part (me : endian) (a : array) (n nmemb : Z) : Prop := {
  tp_rows : znth (a_dims a) 0 = Some n;
  tp_dt : dt_ok me (a_dtype a);
  tp_strides : a_strides a <> [];
  tp_array : 0 < n -> array_ok a;
  tp_size : n * nmemb <= a_size a
}.

(* It holds the elements vs, defined in memory um. *)
Record rank_source (me : endian) (a : array) (um : mem) (n nmemb : Z) (vs : list bytes) : Prop := {
  sc_part : takes_part me a n nmemb;
  sc_len : zlen vs = n * nmemb;
  sc_holds : holds um (elem_addr a) (itemsize me (a_dtype a)) 0 vs;
  sc_disj : dt_native me (a_dtype a) = false -> elems_disjoint (elem_addr a) (itemsize me (a_dtype a)) 0 (zlen vs)
}.

(* It can receive n * nmemb elements. *)
Record rank_target (me : endian) (a : array) (um : mem) (n nmemb : Z) : Prop := {
  tg_part : takes_part me a n nmemb;
  tg_mapped : mapped um (elem_addr a) (itemsize me (a_dtype a)) 0 (n * nmemb);
  tg_disj : elems_disjoint (elem_addr a) (itemsize me (a_dtype a)) 0 (n * nmemb)
}.

(* ---------------------------------------------------------------------- *)
(* Checksums.                                                               *)

(* What all ranks together have recorded for physical file j. *)
Definition recorded (N : nat) (b : nat -> block) (j : nat) : Z :=
  zsum (map (fun i => nth j (b_fchecksum (b i)) 0) (seq 0 N)).
(* The handle of rank 0 with what all ranks together have recorded. *)
Definition merged (N : nat) (b : nat -> block) : block :=
  let n := Z.to_nat (b_Nfile (b 0%nat)) in
  set_checksums (set_bdirty (b 0%nat) (existsb (fun i => b_dirty (b i)) (seq 0 N)))
    (map (fun j => recorded N b j mod 2 ^ 32) (seq 0 n) ++ skipn n (b_fchecksum (b 0%nat))).

(* ---------------------------------------------------------------------- *)
(* Segments.                                                                *)

(* Sum over the ranks k < j of segment c. *)
Definition seg_sum (col : nat -> Z) (c : Z) (s : list Z) (j : nat) : Z :=
  zsum (map (fun k => nth k s 0) (filter (fun k => col k =? c) (seq 0 j))).

(* col gives every rank a segment, or -1; s and s2 are the sizes of the ranks,
   in two measures. *)
Record segmentation (limit : Z) (s s2 : list Z) (col : nat -> Z) (count : Z) : Prop := {
  sm_none : forall i, (i < length s)%nat -> (col i = -1 <-> nth i s 0 = 0 /\ nth i s2 0 = 0);
  sm_range : forall i, (i < length s)%nat -> col i <> -1 -> 0 <= col i < count;
  sm_mono : forall i j, (i <= j < length s)%nat -> col i <> -1 -> col j <> -1 -> col i <= col j;
  sm_gaps : forall c, 0 <= c < count - 1 -> exists i, (i < length s)%nat /\ col i = c;
  sm_small : forall j, (j < length s)%nat -> col j <> -1 -> seg_sum col (col j) s j <= limit /\ seg_sum col (col j) s2 j <= limit;
  sm_full : forall i j, (i < length s)%nat -> (j < length s)%nat -> col i <> -1 -> col i < col j ->
    limit < seg_sum col (col i) s (length s) \/ limit < seg_sum col (col i) s2 (length s)
}.
