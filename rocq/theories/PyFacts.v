(* Proofs about the Python layer. *)
From Coq.Strings Require Import Byte String.
From Coq Require Import List ZArith Lia Bool ZifyBool ZifyNat.
From Verif Require Import Base BaseFacts Dtype Cast Array FS Fmt Attr Block File Spec AttrSpec OpenSpec HistSpec Py PySpec
  DtypeFacts ArrayFacts SeekFacts ConvFacts WriteFacts ReadFacts IOFacts OpenFacts HistFacts AggFacts MpiFacts StepFacts.
Import ListNotations.
Open Scope Z_scope.
Local Open Scope out_scope.
Ltac Zify.zify_post_hook ::= Z.div_mod_to_equations.

(* ------------------------------------------------------------------ slices *)
Lemma slice_bounds start stop n : 0 <= n ->
  slice_indices start stop None n = Some (bound n 0 start, bound n n stop, 1).
Proof.
  intros Hn. unfold slice_indices, bound. cbn -[Z.max Z.min]. change (1 =? 0) with false. change (1 <? 0) with false. cbv iota.
  f_equal. f_equal. f_equal.
  - destruct start as [i|]; [|reflexivity]. destruct (i <? 0) eqn:E; lia.
  - destruct stop as [i|]; [|reflexivity]. destruct (i <? 0) eqn:E; lia.
Qed.
Lemma slice_bounds1 start stop n : 0 <= n ->
  slice_indices start stop (Some 1) n = Some (bound n 0 start, bound n n stop, 1).
Proof. intros H. rewrite <- slice_bounds by exact H. reflexivity. Qed.
Lemma bound_range n d i : 0 <= n -> 0 <= d <= n -> 0 <= bound n d i <= n.
Proof. intros H1 H2. unfold bound. destruct i; lia. Qed.

(* ------------------------------------------------------------------ arrays *)
Section Get.
Variables (e : env) (base dt : bytes) (nmemb : Z).
Let isz := itemsize (e_me e) dt.
Let w := isz * nmemb.
Hypothesis Hbn : block_name base.
Hypothesis Hty : header_type dt.
Hypothesis Hnm31 : 0 < nmemb < 2 ^ 31.
Hypothesis Hwc : w <= e_chunk e.
Hypothesis Hw31 : w < 2 ^ 31.
Hypothesis Hdt : dt_ok (e_me e) dt.
Notation inv := (hinv e base dt nmemb w).

Definition dims_of (n : Z) : list Z := if nmemb =? 1 then [n] else [n; nmemb].
Definition strides_of : list Z := if nmemb =? 1 then [isz] else [isz * nmemb; isz].
Definition pyarray (p n : Z) : array := mkArray p dt (dims_of n) strides_of (n * nmemb).

Lemma isz_pos : 0 < isz.
Proof. apply Hdt. Qed.
Lemma w_pos : 0 < w.
Proof. pose proof isz_pos. unfold w. nia. Qed.

Lemma py_strides n : fst (contig_strides isz (dims_of n)) = strides_of.
Proof. unfold dims_of, strides_of. destruct (nmemb =? 1) eqn:E; cbn; reflexivity. Qed.
Lemma py_init p d n : dtype_normalize (e_me e) d = dt ->
  big_array_init (e_me e) p d (dims_of n) (Some (fst (contig_strides isz (dims_of n)))) = Ret (pyarray p n).
Proof.
  intros Ed. rewrite py_strides. unfold big_array_init, pyarray. rewrite Ed. unfold dims_of, strides_of. destruct (nmemb =? 1) eqn:E; cbn [zlen length Nat.eqb].
  - change (32 <? zlen [n]) with false. cbv iota. f_equal. f_equal. unfold zprod. simpl. lia.
  - change (32 <? zlen [n; nmemb]) with false. cbv iota. f_equal. f_equal. unfold zprod. simpl. lia.
Qed.
Lemma py_ok p n : 0 < n -> array_ok (pyarray p n).
Proof.
  intros Hn. unfold pyarray, dims_of, strides_of. constructor; cbn [a_strides a_dims a_size]; destruct (nmemb =? 1) eqn:E; try reflexivity; try discriminate.
  - repeat constructor; lia.
  - repeat constructor; lia.
  - unfold zprod. simpl. lia.
  - unfold zprod. simpl. lia.
Qed.
Lemma py_contig p n : contig_of (e_me e) (pyarray p n) = true.
Proof.
  unfold contig_of, elsize_of, pyarray, dims_of, strides_of. cbn [a_dtype a_dims a_strides]. fold isz. destruct (nmemb =? 1); cbn [rev app contig_check].
  - rewrite Z.eqb_refl. reflexivity.
  - rewrite !Z.eqb_refl. reflexivity.
Qed.
Lemma py_addr p n k : 0 < n -> 0 <= k < n * nmemb -> elem_addr (pyarray p n) k = p + k * isz.
Proof. intros Hn Hk. rewrite (elem_addr_contig (e_me e)); [reflexivity|apply py_ok; exact Hn|apply py_contig|exact Hk]. Qed.
Lemma py_nrows p n : nrows nmemb (pyarray p n) = n.
Proof. unfold nrows. cbn [a_size pyarray]. apply Z.div_mul. lia. Qed.
Lemma py_disjoint p n : 0 < n -> elems_disjoint (elem_addr (pyarray p n)) isz 0 (n * nmemb).
Proof. intros Hn i j Hi Hj. rewrite !py_addr by lia. pose proof isz_pos. nia. Qed.
Lemma py_in p n x : 0 < n -> in_elems (elem_addr (pyarray p n)) isz 0 (n * nmemb) x -> p <= x < p + n * w.
Proof. intros Hn (j & Hj & Hx). rewrite py_addr in Hx by lia. pose proof isz_pos. unfold w. nia. Qed.

Lemma concat_zlen (rows : list bytes) : Forall (fun v => length v = Z.to_nat w) rows -> zlen (concat rows) = zlen rows * w.
Proof. intros HF. induction HF as [|v l Hv HF IH]; [reflexivity|]. cbn [concat]. rewrite zlen_app, zlen_cons, IH. unfold zlen at 1. rewrite Hv. pose proof w_pos. lia. Qed.
Lemma elems_rows rows n : zlen rows = n -> Forall (fun v => length v = Z.to_nat w) rows ->
  rows_of nmemb n (group (Z.to_nat isz) (Z.to_nat (n * nmemb)) (concat rows)) = rows.
Proof.
  intros Hl HF. pose proof (zlen_nonneg rows). pose proof isz_pos.
  assert (HL : zlen (concat rows) = n * w) by (rewrite concat_zlen by exact HF; rewrite Hl; reflexivity).
  rewrite rows_of_bytes by (first [lia|exact HL]). replace (Z.to_nat n) with (length rows) by (unfold zlen in Hl; lia). apply concat_group_id. exact HF.
Qed.

(* ------------------------------------------------------------------ reading *)
Variable alloc : Z -> Z * mem.
Hypothesis Hal : alloc_ok alloc.

Lemma read_op o n : 0 <= o < 2 ^ 63 -> 0 < n -> n * nmemb < 2 ^ 63 -> forall sizes,
  hop_ok (e_me e) dt nmemb sizes (HRead o (pyarray (fst (alloc (n * w))) n) (snd (alloc (n * w)))).
Proof.
  intros Ho Hn Hs sizes. split; [exact Ho|]. split; [exact Hs|]. split; [apply py_ok; exact Hn|]. split; [exact Hdt|]. split; [left; reflexivity|].
  split; [intros v _; exists v; apply StepFacts.converts_self|]. rewrite py_nrows. cbn [a_dtype pyarray]. fold isz. split; [|apply py_disjoint; exact Hn].
  intros x Hx. apply py_in in Hx; [|exact Hn]. pose proof (Hal (n * w) (x - fst (alloc (n * w))) ltac:(lia)) as H.
  replace (fst (alloc (n * w)) + (x - fst (alloc (n * w)))) with x in H by lia. exact H.
Qed.

Lemma np_empty_eq b n : b_dtype b = dt -> b_nmemb b = nmemb -> np_empty e alloc b n = Ret (pyarray (fst (alloc (n * w))) n, snd (alloc (n * w))).
Proof.
  intros E1 E2. unfold np_empty, py_dims. rewrite E1, E2. fold isz w. fold (dims_of n). destruct (alloc (n * w)) as [p m] eqn:Ea. cbn [fst snd].
  rewrite py_init by (apply Hdt). reflexivity.
Qed.

(* the part of py_read after the length is known *)
Definition rest_of (f : fs) (b : block) (start length : Z) : out (pyres (array * mem)) :=
  if length <? 0 then Ret (PyRaise ValueError) else
  '(a, m) <- np_empty e alloc b length ;;
  '(rc, p) <- big_block_seek b (mkPtr 0 0 0) start ;;
  if negb (rc =? 0) then Ret (PyRaise BigError) else
  '(rc, _, m) <- big_block_read e f b p a m ;;
  if negb (rc =? 0) then Ret (PyRaise BigError) else Ret (PyRet (a, m)).
Lemma py_read_rest f b start length : py_read e alloc f b start length =
  rest_of f b start (let length := if length =? -1 then b_size b - start else length in
                     if b_size b <? s64 (length + start) then b_size b - start else length).
Proof. reflexivity. Qed.

Lemma rest_step f b o n : 0 < n -> b_dtype b = dt -> b_nmemb b = nmemb -> forall rc um f' b',
  hstep e (f, b) (HRead o (pyarray (fst (alloc (n * w))) n) (snd (alloc (n * w)))) = Ret ((rc, Some um), (f', b')) ->
  rest_of f b o n = Ret (if rc =? 0 then PyRet (pyarray (fst (alloc (n * w))) n, um) else PyRaise BigError).
Proof.
  intros Hn E1 E2 rc um f' b' H. unfold rest_of. replace (n <? 0) with false by lia. rewrite np_empty_eq by assumption. cbn [bind].
  cbn [hstep] in H. destruct (big_block_seek b _ o) as [[r p]|u|]; cbn [bind] in *; try discriminate H.
  destruct (negb (r =? 0)) eqn:Er; [injection H as <- <- <- <-; replace (r =? 0) with false by lia; reflexivity|].
  destruct (big_block_read e f b p _ _) as [[[r2 p2] um2]|u|]; cbn [bind] in *; try discriminate H. injection H as <- <- <- <-. destruct (r2 =? 0); reflexivity.
Qed.

Lemma read_none t f b o : inv t f b -> 0 <= o <= t_size t -> rest_of f b o 0 = Ret (PyRet (pyarray (fst (alloc 0)) 0, snd (alloc 0))).
Proof.
  intros I Ho. destruct (hinv_size _ _ _ _ _ _ _ _ I) as (Es & Ed & En & HL). pose proof (hl_small _ _ HL) as Hsm. unfold t_size in *.
  unfold rest_of. change (0 <? 0) with false. cbv iota. rewrite np_empty_eq by assumption. cbn [bind]. change (0 * w) with 0.
  destruct (seek_nonneg b (t_sizes t) (mkPtr 0 0 0) o HL Ho) as (p & E & P & _). rewrite E. cbn [bind]. change (negb (0 =? 0)) with false. cbv iota.
  unfold big_block_read, felsize, row_nmemb, chunk_rows. rewrite Ed, En. fold isz. replace (nmemb =? 0) with false by lia. fold w. pose proof w_pos as Hw.
  replace (2 ^ 31 <=? Z.abs w) with false by lia. replace (w =? 0) with false by lia.
  unfold felsize, row_nmemb. rewrite Ed, En. fold isz. replace (nmemb =? 0) with false by lia. fold w.
  unfold big_array_init at 1. change (32 <? zlen [e_chunk e / u64 w; nmemb]) with false. cbv iota. cbn [bind].
  rewrite (foffset_nth b (t_sizes t)) by (auto; apply P). cbn [or_ub bind]. cbn [a_size pyarray]. replace (0 * nmemb / nmemb) with 0 by (rewrite Z.mul_0_l, Z.div_0_l; lia).
  rewrite (pa_abs _ _ _ P), Z.add_0_r. replace (s64 o) with o by (unfold s64; lia). replace (u64 o) with o by (unfold u64; lia).
  rewrite (hl_size _ _ HL). replace (zsum (t_sizes t) <? o) with false by lia. cbn [Z.to_nat read_loop]. reflexivity.
Qed.

(* ------------------------------------------------------------------ rows of a table *)
Lemma read_some t f b o n : inv t f b -> 0 <= o -> 0 < n -> o + n <= t_size t -> t_size t * nmemb < 2 ^ 63 ->
  (forall rows, zlen rows = n -> Forall (fun v => length v = Z.to_nat w) rows ->
     (forall j v, nth_error rows j = Some v -> shows w t (o + Z.of_nat j) v) ->
     exists m, rest_of f b o n = Ret (PyRet (pyarray (fst (alloc (n * w))) n, m)) /\
       array_rows isz nmemb dt (pyarray (fst (alloc (n * w))) n) m rows) /\
  ((exists r, o <= r < o + n /\ absent t r) -> rest_of f b o n = Ret (PyRaise BigError)).
Proof.
  intros I Ho Hn Hs Hsm. destruct (hinv_size _ _ _ _ _ _ _ _ I) as (Es & Ed & En & HL). pose proof (hl_small _ _ HL) as H63. unfold t_size in *.
  assert (Hok : hop_ok (e_me e) dt nmemb (t_sizes t) (HRead o (pyarray (fst (alloc (n * w))) n) (snd (alloc (n * w))))) by (apply read_op; nia).
  destruct (hist_step e base dt nmemb w Hbn Hty ltac:(lia) Hwc Hw31 t f b _ I Hok) as (x & f2 & b2 & t2 & E2 & S2 & _).
  inversion S2 as [| |o0 a0 um0 rc um' Hfar Hsh Hab Hrc Hfr| | |]; subst. rewrite py_nrows in *.
  apply rest_step in E2; [|exact Hn|exact Ed|exact En]. rewrite E2. split.
  - intros rows Hl HF Hrows. set (es := group (Z.to_nat isz) (Z.to_nat (n * nmemb)) (concat rows)).
    pose proof (concat_zlen rows HF) as Hcl. rewrite Hl in Hcl. pose proof isz_pos as Hi.
    assert (Hln : length (concat rows) = (Z.to_nat isz * Z.to_nat (n * nmemb))%nat) by (unfold zlen, w in Hcl; nia).
    destruct (Hsh es es) as [-> Hw]; try (unfold t_size; lia).
    + unfold es, zlen. rewrite DtypeFacts.group_length. nia.
    + apply group_widths. exact Hln.
    + intros j v Hj. unfold es in Hj. rewrite elems_rows in Hj by assumption. apply Hrows. exact Hj.
    + apply StepFacts.converts_selfs.
    + exists um'. split; [reflexivity|]. unfold array_rows, pyarray. cbn [a_dtype a_dims a_strides a_data]. split; [reflexivity|]. split; [unfold dims_of; rewrite Hl; reflexivity|]. split; [reflexivity|].
      assert (Hle : zlen es = n * nmemb) by (unfold es, zlen; rewrite DtypeFacts.group_length; nia).
      pose proof (concat_load um' (elem_addr (pyarray (fst (alloc (n * w))) n)) isz (fst (alloc (n * w))) es 0 ltac:(lia)) as X.
      assert (Hce : concat es = concat rows) by (apply concat_group; lia). rewrite Z.mul_0_l, Z.add_0_r, Hle, Hce in X.
      replace (length (concat rows)) with (Z.to_nat (n * nmemb * isz)) by (rewrite Hln; nia). apply X.
      * intros j Hj. apply py_addr; lia.
      * destruct Hw as [Hw _]. intros j v Hj. apply Hw. exact Hj.
  - intros (r & Hr & Ha). rewrite (Hab r); unfold t_size; auto.
Qed.

Lemma rows_cut t rows lo n : shows_all w t rows -> 0 <= lo -> 0 <= n -> lo + n <= t_size t ->
  let part := firstn (Z.to_nat n) (skipn (Z.to_nat lo) rows) in
  zlen part = n /\ Forall (fun v => length v = Z.to_nat w) part /\ forall j v, nth_error part j = Some v -> shows w t (lo + Z.of_nat j) v.
Proof.
  intros (Hl & HF & HS) H1 H2 H3 part. split; [|split].
  - unfold part, zlen in *. rewrite firstn_length, skipn_length. lia.
  - unfold part. apply Forall_forall. intros v Hv. rewrite Forall_forall in HF. apply HF. rewrite <- (firstn_skipn (Z.to_nat lo) rows). apply in_or_app. right.
    rewrite <- (firstn_skipn (Z.to_nat n) (skipn (Z.to_nat lo) rows)). apply in_or_app. left. exact Hv.
  - intros j v Hj. unfold part in Hj.
    assert (Hj2 : nth_error (skipn (Z.to_nat lo) rows) j = Some v).
    { revert Hj. generalize (skipn (Z.to_nat lo) rows) as l, (Z.to_nat n) as k, j as i. clear. induction l as [|y l IH]; intros [|k] [|i] H; try discriminate H; cbn in *; auto. apply (IH k i). exact H. }
    assert (Hj3 : nth_error rows (Z.to_nat lo + j) = Some v).
    { revert Hj2. generalize rows as l, (Z.to_nat lo) as k. clear. induction l as [|y l IH]; intros [|k] H; cbn in *; auto. destruct j; discriminate H. }
    apply HS in Hj3. replace (lo + Z.of_nat j) with (Z.of_nat (Z.to_nat lo + j)) by lia. exact Hj3.
Qed.

Lemma read_cut t f b rows lo n : inv t f b -> shows_all w t rows -> 0 <= lo -> 0 <= n -> lo + n <= t_size t -> t_size t * nmemb < 2 ^ 63 ->
  exists a m, rest_of f b lo n = Ret (PyRet (a, m)) /\ array_rows isz nmemb dt a m (firstn (Z.to_nat n) (skipn (Z.to_nat lo) rows)).
Proof.
  intros I HS H1 H2 H3 H4. destruct (rows_cut t rows lo n HS H1 H2 H3) as (L & F & S). destruct (Z.eq_dec n 0) as [->|Hn].
  - eexists _, _. split; [apply (read_none t); auto; lia|]. unfold array_rows, pyarray. cbn [a_dtype a_dims a_strides a_data]. unfold dims_of, strides_of. cbn. repeat split; reflexivity.
  - destruct (proj1 (read_some t f b lo n I H1 ltac:(lia) H3 H4) _ L F S) as (m & E & A). eauto.
Qed.

Lemma length_known t f b lo n : inv t f b -> 0 <= lo <= t_size t -> 0 <= n -> lo + n <= t_size t -> py_read e alloc f b lo n = rest_of f b lo n.
Proof.
  intros I H1 H2 H3. rewrite py_read_rest. destruct (hinv_size _ _ _ _ _ _ _ _ I) as (Es & _ & _ & HL). pose proof (hl_small _ _ HL). unfold t_size in *.
  rewrite Es. unfold t_size. replace (n =? -1) with false by lia. cbv zeta. replace (s64 (n + lo)) with (n + lo) by (unfold s64; lia). replace (zsum (t_sizes t) <? n + lo) with false by lia. reflexivity.
Qed.

(* A slice whose bounds are in order. *)
Lemma get_slice t f b rows start stop step : inv t f b -> shows_all w t rows -> t_size t * nmemb < 2 ^ 63 -> step = None \/ step = Some 1 ->
  bound (t_size t) 0 start <= bound (t_size t) (t_size t) stop ->
  exists a m, py_getitem e alloc f b (ISlice start stop step) = Ret (PyRet (a, m)) /\ array_rows isz nmemb dt a m (list_slice rows start stop).
Proof.
  intros I HS H4 Hst Hle. destruct (hinv_size _ _ _ _ _ _ _ _ I) as (Es & _ & _ & HL). pose proof (zlen_nonneg rows) as Hz. pose proof (proj1 HS) as Hl.
  cbn [py_getitem]. unfold py_getslice. rewrite Es.
  assert (Ei : slice_indices start stop step (t_size t) = Some (bound (t_size t) 0 start, bound (t_size t) (t_size t) stop, 1)) by (destruct Hst as [->| ->]; [apply slice_bounds|apply slice_bounds1]; lia).
  rewrite Ei. change (negb (1 =? 1)) with false. cbv iota. unfold list_slice. rewrite Hl.
  pose proof (bound_range (t_size t) 0 start ltac:(lia) ltac:(lia)). pose proof (bound_range (t_size t) (t_size t) stop ltac:(lia) ltac:(lia)).
  rewrite (length_known t) by (auto; lia). apply read_cut with (t := t); auto; lia.
Qed.
Lemma get_absent t f b start stop step : inv t f b -> t_size t * nmemb < 2 ^ 63 -> step = None \/ step = Some 1 ->
  (exists r, bound (t_size t) 0 start <= r < bound (t_size t) (t_size t) stop /\ absent t r) ->
  py_getitem e alloc f b (ISlice start stop step) = Ret (PyRaise BigError).
Proof.
  intros I H4 Hst (r & Hr & Ha). destruct (hinv_size _ _ _ _ _ _ _ _ I) as (Es & _ & _ & HL). pose proof (zsum_nonneg _ (hl_nonneg _ _ HL)) as Hz.
  cbn [py_getitem]. unfold py_getslice. rewrite Es.
  assert (Ei : slice_indices start stop step (t_size t) = Some (bound (t_size t) 0 start, bound (t_size t) (t_size t) stop, 1)) by (destruct Hst as [->| ->]; [apply slice_bounds|apply slice_bounds1]; unfold t_size; lia).
  rewrite Ei. change (negb (1 =? 1)) with false. cbv iota.
  pose proof (bound_range (t_size t) 0 start ltac:(unfold t_size; lia) ltac:(unfold t_size; lia)). pose proof (bound_range (t_size t) (t_size t) stop ltac:(unfold t_size; lia) ltac:(unfold t_size; lia)).
  rewrite (length_known t) by (auto; lia). apply (read_some t); auto; try lia. exists r. split; [lia|exact Ha].
Qed.
(* Bounds out of order: by one, all rows from the start on; by more, an
   exception. *)
Lemma get_disorder t f b rows start stop : inv t f b -> shows_all w t rows -> t_size t * nmemb < 2 ^ 63 ->
  let lo := bound (t_size t) 0 start in let hi := bound (t_size t) (t_size t) stop in
  (hi = lo - 1 -> exists a m, py_getitem e alloc f b (ISlice start stop None) = Ret (PyRet (a, m)) /\ array_rows isz nmemb dt a m (skipn (Z.to_nat lo) rows)) /\
  (hi < lo - 1 -> py_getitem e alloc f b (ISlice start stop None) = Ret (PyRaise ValueError)).
Proof.
  intros I HS H4 lo hi. destruct (hinv_size _ _ _ _ _ _ _ _ I) as (Es & _ & _ & HL). pose proof (zlen_nonneg rows) as Hz. pose proof (proj1 HS) as Hl. pose proof (hl_small _ _ HL) as H63.
  cbn [py_getitem]. unfold py_getslice. rewrite Es, slice_bounds by lia. change (negb (1 =? 1)) with false. cbv iota. fold lo hi.
  pose proof (bound_range (t_size t) 0 start ltac:(lia) ltac:(lia)) as B1. pose proof (bound_range (t_size t) (t_size t) stop ltac:(lia) ltac:(lia)) as B2. fold lo in B1. fold hi in B2. clearbody lo hi.
  fold (t_size t) in H63. split; intros H.
  - rewrite py_read_rest, Es. replace (hi - lo =? -1) with true by lia. cbv zeta. replace (s64 (t_size t - lo + lo)) with (t_size t) by (unfold s64; lia). rewrite Z.ltb_irrefl.
    destruct (read_cut t f b rows lo (t_size t - lo) I HS ltac:(lia) ltac:(lia) ltac:(lia) H4) as (a & m & E & A). exists a, m. split; [exact E|].
    rewrite firstn_all2 in A; [exact A|]. rewrite skipn_length. unfold zlen in Hl. lia.
  - rewrite py_read_rest, Es. replace (hi - lo =? -1) with false by lia. cbv zeta. replace (s64 (hi - lo + lo)) with hi by (unfold s64; lia). replace (t_size t <? hi) with false by lia.
    unfold rest_of. replace (hi - lo <? 0) with true by lia. reflexivity.
Qed.
Lemma get_all t f b rows : inv t f b -> shows_all w t rows -> t_size t * nmemb < 2 ^ 63 ->
  exists a m, py_getitem e alloc f b IEllipsis = Ret (PyRet (a, m)) /\ array_rows isz nmemb dt a m rows.
Proof.
  intros I HS H4. pose proof (zlen_nonneg rows). pose proof (proj1 HS) as Hl. destruct (get_slice t f b rows None None None I HS H4 (or_introl eq_refl)) as (a & m & E & A); [cbn; lia|].
  exists a, m. split; [exact E|]. unfold list_slice, bound in A. rewrite firstn_all2 in A; [exact A|]. cbn [Z.to_nat skipn]. unfold zlen. lia.
Qed.
(* A single row. *)
Lemma slice_one {A} (l : list A) : forall k v, nth_error l k = Some v -> firstn 1 (skipn k l) = [v].
Proof. induction l as [|y l IH]; intros [|k] v H; cbn in *; try discriminate H; [injection H as ->; reflexivity|]. apply IH. exact H. Qed.
Lemma get_row t f b rows i : inv t f b -> shows_all w t rows -> t_size t * nmemb < 2 ^ 63 -> i <> -1 ->
  match list_item rows i with
  | Some v => exists a m, py_getitem e alloc f b (IInt i) = Ret (PyRet (a, m)) /\ array_row isz nmemb dt a m v
  | None => py_getitem e alloc f b (IInt i) = Ret (PyRaise IndexError)
  end.
Proof.
  intros I HS H4 Hi. pose proof (proj1 HS) as Hl. pose proof (zlen_nonneg rows) as Hz. unfold list_item.
  assert (Hb : bound (t_size t) 0 (Some i) <= bound (t_size t) (t_size t) (Some (i + 1))) by (unfold bound; destruct (i <? 0) eqn:?, (i + 1 <? 0) eqn:?; lia).
  destruct (get_slice t f b rows (Some i) (Some (i + 1)) None I HS H4 (or_introl eq_refl) Hb) as (a & m & E & A).
  cbn [py_getitem] in *. rewrite E. unfold py_bind. cbn [bind].
  destruct ((i <? - zlen rows) || (zlen rows <=? i)) eqn:Er.
  - assert (Er2 : list_slice rows (Some i) (Some (i + 1)) = []).
    { unfold list_slice. rewrite Hl. match goal with |- firstn (Z.to_nat ?n) _ = _ => assert (n <= 0) end; [|replace (Z.to_nat (bound (t_size t) (t_size t) (Some (i + 1)) - bound (t_size t) 0 (Some i))) with O by lia; reflexivity].
      unfold bound. destruct (i <? 0) eqn:?, (i + 1 <? 0) eqn:?; lia. }
    rewrite Er2 in A. destruct A as (A1 & A2 & A3 & A4). unfold np_first. rewrite A2, A3. change (zlen (@nil bytes)) with 0.
    destruct (nmemb =? 1); reflexivity.
  - set (k := if i <? 0 then i + zlen rows else i). assert (Hk : 0 <= k < zlen rows) by (unfold k; destruct (i <? 0) eqn:?; lia).
    destruct (nth_error rows (Z.to_nat k)) as [v|] eqn:Hv; [|apply nth_error_None in Hv; unfold zlen in Hk; lia].
    assert (Er2 : list_slice rows (Some i) (Some (i + 1)) = [v]).
    { unfold list_slice. rewrite Hl.
      assert (B1 : bound (t_size t) 0 (Some i) = k) by (unfold bound, k; destruct (i <? 0) eqn:?; lia).
      assert (B2 : bound (t_size t) (t_size t) (Some (i + 1)) = k + 1) by (unfold bound, k; destruct (i <? 0) eqn:?, (i + 1 <? 0) eqn:?; lia).
      rewrite B1, B2. replace (k + 1 - k) with 1 by lia. apply slice_one. exact Hv. }
    rewrite Er2 in A. destruct A as (A1 & A2 & A3 & A4). unfold np_first. rewrite A2, A3. cbn [concat app] in A4. rewrite app_nil_r in A4.
    destruct (nmemb =? 1) eqn:En; cbn [zlen length]; change (0 <? Z.of_nat 1) with true; cbv iota; eexists _, _; (split; [reflexivity|]); unfold array_row; cbn; rewrite En; repeat split; auto.
Qed.
Lemma get_strided f b start stop step : step <> 1 -> py_getitem e alloc f b (ISlice start stop (Some step)) = Ret (PyRaise ValueError).
Proof.
  intros H. cbn [py_getitem]. unfold py_getslice, slice_indices. destruct (step =? 0); [reflexivity|]. replace (negb (step =? 1)) with true by lia. reflexivity.
Qed.

(* ------------------------------------------------------------------ writing *)
Lemma set_slice t f b start stop step a m : inv t f b -> step = None \/ step = Some 1 ->
  hop_ok (e_me e) dt nmemb (t_sizes t) (HWrite 0 a m) -> let lo := bound (t_size t) 0 start in
  exists r f' b' t', py_setitem e f b (ISlice start stop step) a m = Ret (r, (f', b')) /\ inv t' f' b' /\
    (lo + nrows nmemb a <= t_size t -> r = PyRet tt /\ exists vs outs, source (e_me e) dt nmemb a m vs outs /\ t' = with_rows t lo (rows_of nmemb (nrows nmemb a) outs)) /\
    (t_size t < lo + nrows nmemb a -> r = PyRaise BigError /\ t' = t).
Proof.
  intros I Hst Hok lo. destruct (hinv_size _ _ _ _ _ _ _ _ I) as (Es & _ & _ & HL). pose proof (zsum_nonneg _ (hl_nonneg _ _ HL)) as Hz. pose proof (hl_small _ _ HL) as H63.
  cbn [py_setitem]. unfold py_setslice. rewrite Es.
  assert (Ei : slice_indices start stop step (t_size t) = Some (lo, bound (t_size t) (t_size t) stop, 1)) by (destruct Hst as [->| ->]; [apply slice_bounds|apply slice_bounds1]; unfold t_size; lia).
  rewrite Ei. change (negb (1 =? 1)) with false. cbv iota.
  assert (B1 : 0 <= lo <= t_size t) by (apply bound_range; unfold t_size; lia). clearbody lo.
  assert (Hok' : hop_ok (e_me e) dt nmemb (t_sizes t) (HWrite lo a m)) by (destruct Hok as (_ & X); split; [unfold t_size in *; lia|exact X]).
  destruct (hist_step e base dt nmemb w Hbn Hty ltac:(lia) Hwc Hw31 t f b _ I Hok') as (x & f2 & b2 & t2 & E2 & S2 & I2 & _).
  unfold py_write. cbn [hstep] in E2. destruct (big_block_seek b _ lo) as [[rc p]|u|]; cbn [bind] in *; try discriminate E2.
  destruct (negb (rc =? 0)) eqn:Erc.
  - injection E2 as <- <- <-. exists (PyRaise BigError), f, b, t2. split; [reflexivity|]. split; [exact I2|]. inversion S2 as [o0 a0 um0 um' vs outs H1 H2 H3|o0 a0 um0 H1| | | |]; subst; [discriminate Erc|].
    split; [intros; lia|intros; auto].
  - destruct (big_block_write e f b p a m) as [[[[[rc2 f3] b3] p3] m3]|u|]; cbn [bind] in *; try discriminate E2. injection E2 as <- <- <-.
    exists (if negb (rc2 =? 0) then PyRaise BigError else PyRet tt), f3, b3, t2. split; [reflexivity|]. split; [exact I2|].
    inversion S2 as [o0 a0 um0 um' vs outs H1 H2 H3|o0 a0 um0 H1| | | |]; subst.
    + split; [intros _; split; [reflexivity|]; exists vs, outs; auto|intros; lia].
    + split; [intros; lia|intros; auto].
Qed.
End Get.
