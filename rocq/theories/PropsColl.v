(* Properties C40 - C43, C46, C47, C49: collective transfers. In all of them
   [ends N P s] says that from s, under every schedule, the N ranks finish
   without undefined behaviour, deadlock or mismatched collective operations,
   in a state that satisfies P. *)
From Coq.Strings Require Import Byte String.
From Coq Require Import List ZArith Lia Bool ZifyBool ZifyNat.
From Verif Require Import Base BaseFacts Dtype Cast Array FS Fmt Attr Block Spec HistSpec Par Mpi MpiSpec
  ConvFacts MpiFacts AgreeFacts ExecFacts Ex.
Import ListNotations.
Open Scope Z_scope.

(* ------------------------------------------------------------------ C40 *)
(* s and s2 are the sizes of the ranks in two measures. Rank i computes its
   segment number and the number of segments. *)
Theorem C40_segments : forall limit s s2, 0 <= limit -> s <> [] -> length s2 = length s ->
  Forall (fun x => 0 <= x) s -> Forall (fun x => 0 <= x) s2 -> zsum s < 2 ^ 64 -> zsum s2 < 2 ^ 64 ->
  exists count, (forall i, snd (assign_colors limit s s2 i) = count) /\
    segmentation limit s s2 (fun i => fst (assign_colors limit s s2 i)) count.
Proof. exact segments. Qed.

Example C40_example :
  let s := [3; 0; 5; 2; 0; 9; 1; 1; 0] in
  let s2 := [3; 0; 1; 2; 0; 9; 1; 20; 0] in
  (0 <= 6 /\ s <> [] /\ length s2 = length s /\ Forall (fun x => 0 <= x) s /\ Forall (fun x => 0 <= x) s2 /\ zsum s < 2 ^ 64 /\ zsum s2 < 2 ^ 64) /\
  map (assign_colors 6 s s2) (seq 0 9) = [(0, 4); (-1, 4); (0, 4); (1, 4); (-1, 4); (1, 4); (2, 4); (2, 4); (-1, 4)].
Proof. cbv zeta. split; [|vm_compute; reflexivity]. repeat split; try discriminate; try lia; repeat constructor; lia. Qed.

(* ------------------------------------------------------------------ C41 *)
(* N ranks write, rank i with n i rows: the elements outs i, converted from
   the elements vs i of its array. All pointers are at row o. The call fails
   on all ranks or on none; it succeeds exactly when the rows are inside the
   block and their files exist. Then the files are those of one write of all
   rows at row o, in the order of the ranks, and every pointer has moved on by
   the total. The arrays are unchanged, but for elements that were put into
   native byte order. *)
Theorem C41_collective_write : forall N me e b p sizes w base dt nm o n, (0 < N)%nat ->
  coll_ok N me e b p sizes w base dt nm o n ->
  forall a um thr conc, segments_small N thr n -> forall (vs outs : nat -> list bytes) f,
  (forall i, (i < N)%nat -> rank_source me (a i) (um i) (n i) nm (vs i)) ->
  (forall i, (i < N)%nat -> convertible me (a_dtype (a i)) dt /\ Forall2 (converts me (a_dtype (a i)) dt) (vs i) (outs i)) ->
  let rows := flat_map (fun i => rows_of nm (n i) (outs i)) (seq 0 N) in
  ends N (fun res s => exists rc b' p' um',
      (rc = 0 \/ rc = -1) /\
      (rc = 0 <-> o + total N n <= zsum sizes /\ rows_exist f base sizes o (o + total N n)) /\
      (forall i, (i < N)%nat -> res i = (rc, b' i, p' i, um' i) /\ like (b i) (b' i)) /\
      (rc = 0 ->
         fs_eq (g_fs s) (put_rows f base sizes w o rows) /\
         (forall i, (i < N)%nat -> ptr_at sizes (p' i) (o + total N n) /\ src_after me (um i) (um' i) (a i) 0 (vs i) /\
            (b_fchecksum (b' i) <> b_fchecksum (b i) -> b_dirty (b' i) = true)) /\
         forall j, (j < length sizes)%nat -> recorded N b' j mod 2 ^ 32 = (recorded N b j + bytes_into sizes j o rows) mod 2 ^ 32))
    (launch (fun i => whole (mpi_write thr (e i) (world N) i (b i) (p i) (a i) (um i) conc)) f).
Proof. exact coll_write_ok. Qed.

(* Three ranks write 3, 0 and 1 rows at row 1 of a block of 5 rows. *)
Definition ex_rows (i : nat) : Z := nth i [3; 0; 1] 0.
Definition ex_arr (i : nat) : array := mkArray 100 (lit "<i4") [ex_rows i; 2] [16; 4] (2 * ex_rows i).
Definition ex_elems (i : nat) : list bytes := firstn (Z.to_nat (2 * ex_rows i)) ex_vs.
Definition ex_conved (i : nat) : list bytes := firstn (Z.to_nat (2 * ex_rows i)) ex_outs.

Lemma ex_coll : coll_ok 3 LE (fun _ => ex_e) (fun _ => ex_b) (fun _ => ex_p) ex_sizes 8 (lit "d/blk") (lit ">i4") 2 1 ex_rows.
Proof.
  constructor; intros; try reflexivity; try apply ex_wblock; try apply ex_ptr; try ex_neg.
  do 3 (destruct i as [|i]; [ex_neg|]). destruct i; ex_neg.
Qed.
Lemma ex_part i : takes_part LE (ex_arr i) (ex_rows i) 2.
Proof.
  constructor; try reflexivity; try (split; reflexivity); try ex_neg.
  - intros H. do 3 (destruct i as [|i]; [try discriminate H; constructor; try reflexivity; try ex_neg; repeat constructor|]). destruct i; discriminate H.
  - cbn [a_size ex_arr]. lia.
Qed.
Lemma ex_prefix_holds um ad sz k vs m : holds um ad sz k vs -> holds um ad sz k (firstn m vs).
Proof.
  intros H j v Hj. apply H. rewrite <- (firstn_skipn m vs). rewrite nth_error_app1; [exact Hj|]. apply nth_error_Some. congruence.
Qed.
Lemma ex_source i : (i < 3)%nat -> rank_source LE (ex_arr i) ex_um (ex_rows i) 2 (ex_elems i).
Proof.
  intros Hi. constructor.
  - apply ex_part.
  - do 3 (destruct i as [|i]; [reflexivity|]). lia.
  - assert (H : forall j v, nth_error (ex_elems i) j = Some v -> load ex_um (elem_addr (ex_arr i) (0 + Z.of_nat j)) 4 = Some v); [|exact H].
    intros j v Hj. do 3 (destruct i as [|i]; [do 6 (destruct j as [|j]; [first [discriminate Hj|injection Hj as <-; vm_compute; reflexivity]|]); destruct j; discriminate Hj|]). lia.
  - ex_neg.
Qed.
Lemma ex_converted i : (i < 3)%nat -> convertible LE (a_dtype (ex_arr i)) (lit ">i4") /\ Forall2 (converts LE (a_dtype (ex_arr i)) (lit ">i4")) (ex_elems i) (ex_conved i).
Proof. intros Hi. split; [left; reflexivity|]. do 3 (destruct i as [|i]; [vm_compute; repeat constructor|]). lia. Qed.
Lemma ex_rows_exist : rows_exist ex_f (lit "d/blk") ex_sizes 1 5.
Proof.
  intros r i q Hr Hh. assert (r = 1 \/ r = 2 \/ r = 3 \/ r = 4) as D by lia. destruct D as [->|[->|[->| ->]]]; injection Hh as <- <-; vm_compute; discriminate.
Qed.

Example C41_example :
  coll_ok 3 LE (fun _ => ex_e) (fun _ => ex_b) (fun _ => ex_p) ex_sizes 8 (lit "d/blk") (lit ">i4") 2 1 ex_rows /\
  segments_small 3 2 ex_rows /\
  (forall i, (i < 3)%nat -> rank_source LE (ex_arr i) ex_um (ex_rows i) 2 (ex_elems i)) /\
  (forall i, (i < 3)%nat -> convertible LE (a_dtype (ex_arr i)) (lit ">i4") /\ Forall2 (converts LE (a_dtype (ex_arr i)) (lit ">i4")) (ex_elems i) (ex_conved i)) /\
  1 + total 3 ex_rows <= zsum ex_sizes /\ rows_exist ex_f (lit "d/blk") ex_sizes 1 (1 + total 3 ex_rows).
Proof.
  split; [exact ex_coll|]. split; [split; [lia|left; reflexivity]|]. split; [exact ex_source|]. split; [exact ex_converted|]. split; [ex_neg|exact ex_rows_exist].
Qed.

(* ------------------------------------------------------------------ C42 *)
(* Rank i has room for n i rows. The block holds the elements es i of rank i
   at row o + (rows of the ranks before i). Every rank gets its elements,
   converted, and nothing else in its memory, the files or the handles
   changes. *)
Theorem C42_collective_read : forall N me e b p sizes w base dt nm o n, (0 < N)%nat ->
  coll_ok N me e b p sizes w base dt nm o n ->
  forall a um thr conc, segments_small N thr n -> forall (es outs : nat -> list bytes) f,
  (forall i, (i < N)%nat -> rank_target me (a i) (um i) (n i) nm) ->
  (forall i, (i < N)%nat -> convertible me dt (a_dtype (a i))) ->
  (forall i, (i < N)%nat -> zlen (es i) = n i * nm /\ Forall (fun v => length v = Z.to_nat (itemsize me dt)) (es i)) ->
  (forall i, (i < N)%nat -> Forall2 (converts me dt (a_dtype (a i))) (es i) (outs i)) ->
  o + total N n <= zsum sizes ->
  (forall i k v, (i < N)%nat -> nth_error (rows_of nm (n i) (es i)) k = Some v ->
     stored_row f base sizes w (o + before n i + Z.of_nat k) = Some v) ->
  ends N (fun res s => g_fs s = f /\
      forall i, (i < N)%nat -> exists p' um', res i = (0, b i, p', um') /\ ptr_at sizes p' (o + total N n) /\
        wrote (um i) um' (elem_addr (a i)) (itemsize me (a_dtype (a i))) 0 (outs i))
    (launch (fun i => whole (mpi_read thr (e i) (world N) i (b i) (p i) (a i) (um i) conc)) f).
Proof. exact coll_read. Qed.

Definition ex_full : fs := put_rows ex_f (lit "d/blk") ex_sizes 8 1 (flat_map (fun i => rows_of 2 (ex_rows i) (ex_conved i)) (seq 0 3)).
Lemma ex_target i : (i < 3)%nat -> rank_target LE (ex_arr i) ex_um (ex_rows i) 2.
Proof.
  intros Hi. constructor; [apply ex_part| |].
  - intros x (j & Hj & Hx).
    assert (Hj' : 0 <= j < 6) by (do 3 (destruct i as [|i]; [cbn in Hj; lia|]); lia).
    assert (H : 0 <= x < 2000).
    { do 3 (destruct i as [|i]; [enum j 6%nat;
        match type of Hx with ?e <= _ < _ => let v := eval vm_compute in e in change e with v in Hx end; change (itemsize LE (a_dtype (ex_arr 0))) with 4 in Hx; change (itemsize LE (a_dtype (ex_arr 1))) with 4 in Hx; change (itemsize LE (a_dtype (ex_arr 2))) with 4 in Hx; lia|]). lia. }
    unfold ex_um. destruct (0 <=? x) eqn:E1; [|lia]. destruct (x <? 2000) eqn:E2; [|lia]. discriminate.
  - intros x y Hx Hy. assert (Hr : 0 <= ex_rows i * 2 <= 6) by (do 3 (destruct i as [|i]; [cbn; lia|]); lia).
    assert (Hy' : 0 <= y < 6) by lia. assert (Hx' : 0 <= x < 6) by lia. assert (Hxy : x < y) by lia. clear Hx Hy Hr.
    do 3 (destruct i as [|i]; [enum y 6%nat; enum x 6%nat; try lia; vm_compute; (left; discriminate) || (right; discriminate)|]). lia.
Qed.

Example C42_example :
  (forall i, (i < 3)%nat -> rank_target LE (ex_arr i) ex_um (ex_rows i) 2) /\
  (forall i, (i < 3)%nat -> convertible LE (lit ">i4") (a_dtype (ex_arr i))) /\
  (forall i, (i < 3)%nat -> zlen (ex_conved i) = ex_rows i * 2 /\ Forall (fun v => length v = Z.to_nat (itemsize LE (lit ">i4"))) (ex_conved i)) /\
  (forall i, (i < 3)%nat -> Forall2 (converts LE (lit ">i4") (a_dtype (ex_arr i))) (ex_conved i) (ex_elems i)) /\
  (forall i k v, (i < 3)%nat -> nth_error (rows_of 2 (ex_rows i) (ex_conved i)) k = Some v ->
     stored_row ex_full (lit "d/blk") ex_sizes 8 (1 + before ex_rows i + Z.of_nat k) = Some v).
Proof.
  split; [exact ex_target|]. split; [intros; left; reflexivity|]. split; [|split].
  - intros i Hi. do 3 (destruct i as [|i]; [split; [reflexivity|vm_compute; repeat constructor]|]). lia.
  - intros i Hi. do 3 (destruct i as [|i]; [vm_compute; repeat constructor|]). lia.
  - intros i k v Hi. do 3 (destruct i as [|i]; [do 3 (destruct k as [|k]; [intros H; first [discriminate H|injection H as <-; vm_compute; reflexivity]|]); destruct k; intros H; discriminate H|]). lia.
Qed.

(* ------------------------------------------------------------------ C43 *)
(* Rank i reports rt i, and has the error message msg i. *)
Theorem C43_agreement : forall N (rt : nat -> Z) (msg : nat -> bytes) f, (0 < N)%nat ->
  ends N (fun res s => g_fs s = f /\
      ((forall i, (i < N)%nat -> rt i = 0 /\ res i = (0, msg i)) \/
       exists k, (k < N)%nat /\ rt k <> 0 /\ (forall j, (k < j < N)%nat -> rt j = 0) /\
         forall i, (i < N)%nat -> res i = (rt k, msg k)))
    (launch (fun i => whole (anyerror (world N) i (rt i) (msg i))) f).
Proof. exact agreement. Qed.

(* Four ranks, the first and the third fail: all end with the error of the
   third. *)
Example C43_example :
  let s := exec 4 1000 (launch (fun i => whole (anyerror (world 4) i (nth i [-1; 0; 5; 0] 0) (nth i [lit "a"; lit "b"; lit "c"; lit "d"] []))) []) in
  map (g_ps s) (seq 0 4) = map Done [(5, lit "c"); (5, lit "c"); (5, lit "c"); (5, lit "c")].
Proof. vm_compute. reflexivity. Qed.

(* ------------------------------------------------------------------ C46 *)
(* [ends] says that no rank waits forever and that the members of each
   communicator make the same collective operations on it. It holds for every
   write, also if it fails: past the end, with files missing or with element
   types that cannot be converted; all ranks return the same value. *)
Theorem C46_write_matches : forall N me e b p sizes w base dt nm o n, (0 < N)%nat ->
  coll_ok N me e b p sizes w base dt nm o n ->
  forall a um thr conc, segments_small N thr n -> forall (vs outs : nat -> list bytes) f,
  (forall i, (i < N)%nat -> rank_source me (a i) (um i) (n i) nm (vs i)) ->
  (forall i, (i < N)%nat -> convertible me (a_dtype (a i)) dt -> Forall2 (converts me (a_dtype (a i)) dt) (vs i) (outs i)) ->
  ends N (fun res s => exists rc, (rc = 0 \/ rc = -1) /\
      forall i, (i < N)%nat -> exists b' p' um', res i = (rc, b', p', um') /\ like (b i) b' /\ wblock (e i) b' sizes w /\
        (rc = 0 -> ptr_at sizes p' (o + total N n)) /\ (rc <> 0 -> p' = p i))
    (launch (fun i => whole (mpi_write thr (e i) (world N) i (b i) (p i) (a i) (um i) conc)) f).
Proof. exact coll_write_matches. Qed.

(* The same for a read of whatever is in the files, if the conversion is
   defined on all bytes. *)
Theorem C46_read_matches : forall N me e b p sizes w base dt nm o n, (0 < N)%nat ->
  coll_ok N me e b p sizes w base dt nm o n ->
  forall a um thr conc, segments_small N thr n -> forall f,
  (forall i, (i < N)%nat -> rank_target me (a i) (um i) (n i) nm) ->
  (forall i, (i < N)%nat -> convertible me dt (a_dtype (a i)) ->
     forall v, length v = Z.to_nat (itemsize me dt) -> exists r, converts me dt (a_dtype (a i)) v r) ->
  ends N (fun res s => g_fs s = f /\ exists rc, (rc = 0 \/ rc = -1) /\ (zsum sizes < o + total N n -> rc = -1) /\
      ((exists q, o <= q < o + total N n /\ stored_row f base sizes w q = None) -> rc = -1) /\
      forall i, (i < N)%nat -> exists p' um', res i = (rc, b i, p', um') /\
        (rc = 0 -> ptr_at sizes p' (o + total N n)) /\ (rc <> 0 -> p' = p i) /\
        (forall x, ~ in_elems (elem_addr (a i)) (itemsize me (a_dtype (a i))) 0 (n i * nm) x -> um' x = um i x))
    (launch (fun i => whole (mpi_read thr (e i) (world N) i (b i) (p i) (a i) (um i) conc)) f).
Proof. exact coll_read_any. Qed.

Lemma four_bytes (v : bytes) : length v = 4%nat -> exists x y z t, v = [x; y; z; t].
Proof. intros H. do 4 (destruct v as [|? v]; [discriminate|]). destruct v; [eauto|discriminate]. Qed.
Example C46_example :
  (forall i, (i < 3)%nat -> rank_target LE (ex_arr i) ex_um (ex_rows i) 2) /\
  (forall i, (i < 3)%nat -> convertible LE (lit ">i4") (a_dtype (ex_arr i)) ->
     forall v, length v = Z.to_nat (itemsize LE (lit ">i4")) -> exists r, converts LE (lit ">i4") (a_dtype (ex_arr i)) v r) /\
  ~ convertible LE (lit "<i4") (lit "<S3").
Proof.
  split; [exact ex_target|]. split.
  - intros i _ _ v Hv. destruct (four_bytes v Hv) as (x & y & z & t & ->). exists [t; z; y; x]. reflexivity.
  - intros [H|H]; [discriminate H|apply H; reflexivity].
Qed.

(* ------------------------------------------------------------------ C47 *)
(* Partial: a write that would pass the end fails on all ranks, and whether it
   fails or not, in all schedules, rows outside those addressed by the caller
   and all other files are left alone. *)
Theorem C47_failed_write_partial : forall N me e b p sizes w base dt nm o n, (0 < N)%nat ->
  coll_ok N me e b p sizes w base dt nm o n ->
  forall a um thr conc, segments_small N thr n -> forall (vs outs : nat -> list bytes) f,
  (forall i, (i < N)%nat -> rank_source me (a i) (um i) (n i) nm (vs i)) ->
  (forall i, (i < N)%nat -> convertible me (a_dtype (a i)) dt -> Forall2 (converts me (a_dtype (a i)) dt) (vs i) (outs i)) ->
  ends N (fun res s => spares base sizes w o (o + total N n) f (g_fs s) /\
      (zsum sizes < o + total N n -> forall i, (i < N)%nat -> exists b' um', res i = (-1, b', p i, um') /\ like (b i) b'))
    (launch (fun i => whole (mpi_write thr (e i) (world N) i (b i) (p i) (a i) (um i) conc)) f).
Proof. exact coll_write_spares. Qed.

(* Two ranks write 3 and 1 rows at row 0 of a block of 2 rows. *)
Definition rf_sizes : list Z := [2].
Definition rf_b : block := mkBlock (lit "<i4") 2 (lit "d/blk") 2 [2; 0] [0; 2] [0; 0] 1 (attrset_create 0) false.
Definition rf_p : bptr := mkPtr 0 0 0.
Definition rf_rows (i : nat) : Z := nth i [3; 1] 0.
Definition rf_arr (i : nat) : array := mkArray (nth i [100; 500] 0) (lit "<i4") [rf_rows i; 2] [16; 4] (2 * rf_rows i).
Definition rf_vs (i : nat) : list bytes :=
  map (fun k => match load ex_um (elem_addr (rf_arr i) (Z.of_nat k)) 4 with Some l => l | None => [] end) (seq 0 (Z.to_nat (2 * rf_rows i))).
Definition rf_f : fs := [([lit "d"], Dir); ([lit "d"; lit "blk"], Dir); ([lit "d"; lit "blk"; lit "000000"], File (lit "abcdefghijklmnop"))].

(* Refuted: it is not the case that every row keeps its bytes or gets those
   the caller addressed to it. *)
Theorem C47_refuted : exists N me e b p sizes w base dt nm o n a um thr conc (vs outs : nat -> list bytes) f,
  (0 < N)%nat /\ coll_ok N me e b p sizes w base dt nm o n /\ segments_small N thr n /\
  (forall i, (i < N)%nat -> rank_source me (a i) (um i) (n i) nm (vs i)) /\
  (forall i, (i < N)%nat -> convertible me (a_dtype (a i)) dt /\ Forall2 (converts me (a_dtype (a i)) dt) (vs i) (outs i)) /\
  ~ ends N (fun res s => forall r,
      stored_row (g_fs s) base sizes w r = stored_row f base sizes w r \/
      exists k v, nth_error (flat_map (fun i => rows_of nm (n i) (outs i)) (seq 0 N)) k = Some v /\ r = o + Z.of_nat k /\
        stored_row (g_fs s) base sizes w r = Some v)
    (launch (fun i => whole (mpi_write thr (e i) (world N) i (b i) (p i) (a i) (um i) conc)) f).
Proof.
  exists 2%nat, LE, (fun _ => ex_e), (fun _ => rf_b), (fun _ => rf_p), rf_sizes, 8, (lit "d/blk"), (lit "<i4"), 2, 0, rf_rows, rf_arr, (fun _ => ex_um), 0, 2, rf_vs, rf_vs, rf_f.
  split; [lia|]. split; [|split; [|split; [|split]]].
  - constructor; intros; try reflexivity; try ex_neg.
    + constructor; [|split; reflexivity|reflexivity|reflexivity]. constructor; try reflexivity; repeat constructor; discriminate.
    + constructor; try reflexivity; vm_compute; try (split; discriminate); discriminate.
    + do 2 (destruct i as [|i]; [ex_neg|]). destruct i; ex_neg.
  - split; [lia|left; reflexivity].
  - intros i Hi. constructor.
    + constructor; try reflexivity; try (split; reflexivity); try ex_neg.
      * intros _. do 2 (destruct i as [|i]; [constructor; try reflexivity; try ex_neg; repeat constructor|]). lia.
      * cbn [a_size rf_arr]. lia.
    + do 2 (destruct i as [|i]; [reflexivity|]). lia.
    + assert (H : forall j v, nth_error (rf_vs i) j = Some v -> load ex_um (elem_addr (rf_arr i) (0 + Z.of_nat j)) 4 = Some v); [|exact H].
      intros j v Hj. do 2 (destruct i as [|i]; [do 6 (destruct j as [|j]; [first [discriminate Hj|injection Hj as <-; vm_compute; reflexivity]|]); destruct j; discriminate Hj|]). lia.
    + ex_neg.
  - intros i Hi. split; [left; reflexivity|]. do 2 (destruct i as [|i]; [vm_compute; repeat constructor|]). lia.
  - intros H. apply (ends_exec_done 2 _ 1000) in H; [|vm_compute; reflexivity]. destruct H as (res & _ & H). specialize (H 0). destruct H as [H|(k & v & Hk & Hr & H)].
    + vm_compute in H. discriminate H.
    + destruct k as [|k]; [|lia]. revert Hk H. vm_compute. intros X Y. congruence.
Qed.

Example C47_example :
  (forall i, (i < 3)%nat -> rank_source LE (ex_arr i) ex_um (ex_rows i) 2 (ex_elems i)) /\
  (forall i, (i < 2)%nat -> takes_part LE (rf_arr i) (rf_rows i) 2) /\ zsum rf_sizes < 0 + total 2 rf_rows.
Proof.
  split; [exact ex_source|]. split; [|reflexivity]. intros i Hi. constructor; try reflexivity; try (split; reflexivity); try ex_neg.
  - intros _. do 2 (destruct i as [|i]; [constructor; try reflexivity; try ex_neg; repeat constructor|]). lia.
  - cbn [a_size rf_arr]. lia.
Qed.

(* ------------------------------------------------------------------ C49 *)
(* Every rank gets the number of the lowest rank that attains the extremum. *)
Theorem C49_leader : forall N t op (v : nat -> Z) f (better : Z -> Z -> Prop), (0 < N)%nat ->
  op = RMax /\ better = Z.ge \/ op = RMin /\ better = Z.le ->
  ends N (fun res s => g_fs s = f /\ exists k, (k < N)%nat /\ (forall j, (j < N)%nat -> better (v k) (v j)) /\ (forall j, (j < k)%nat -> v j <> v k) /\
      forall i, (i < N)%nat -> res i = Z.of_nat k)
    (launch (fun i => whole (getloc (world N) i t op (v i))) f).
Proof. exact leader. Qed.

Example C49_example :
  let s := exec 5 1000 (launch (fun i => whole (getloc (world 5) i CLong RMax (nth i [3; 7; -2; 7; 0] 0))) []) in
  map (g_ps s) (seq 0 5) = map Done [1; 1; 1; 1; 1].
Proof. vm_compute. reflexivity. Qed.

Definition coll_theorems := (C40_segments, C40_example, C41_collective_write, C41_example, C42_collective_read, C42_example, C43_agreement, C43_example,
  C46_write_matches, C46_read_matches, C46_example, C47_failed_write_partial, C47_refuted, C47_example, C49_leader, C49_example).
Print Assumptions coll_theorems.
