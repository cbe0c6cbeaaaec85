(* Properties C56 - C58, C66: the Python layer. *)
From Coq.Strings Require Import Byte String.
From Coq Require Import List ZArith Lia Bool.
From Verif Require Import Base BaseFacts Dtype Cast Array FS Fmt Attr Block File Split Spec AttrSpec OpenSpec HistSpec FileSpec Py PySpec
  FSFacts WriteFacts IOFacts OpenFacts HistFacts FrameFacts MiscFacts PyFacts PyNewFacts Ex PropsHeader PropsHist PropsFile.
Import ListNotations.
Open Scope Z_scope.

Lemma inv_behaves e base dt nmemb w t f b : block_name base -> header_type dt -> nmemb < 2 ^ 31 -> w <= e_chunk e -> w < 2 ^ 31 ->
  hinv e base dt nmemb w t f b -> behaves e dt nmemb f b t.
Proof.
  intros H1 H2 H3 H4 H5 I os Hos. destruct (hist_run e base dt nmemb w H1 H2 H3 H4 H5 os t f b I Hos) as (xs & f' & b' & t' & E & S & I' & _).
  exists xs, f', b', t'. split; [exact E|]. split; [exact S|]. apply (hinv_size _ _ _ _ _ _ _ _ I').
Qed.

(* ------------------------------------------------------------------ C56 *)
(* After any history, reading with a slice. bound n 0 start is the first row
   of the slice, bound n n stop the row after its last one. *)
Theorem C56_slicing_partial : forall e alloc f base d nmemb sizes os,
  let dt := dtype_normalize (e_me e) d in let isz := itemsize (e_me e) dt in
  alloc_ok alloc -> new_block e f base d nmemb sizes -> history_ok (e_me e) dt nmemb sizes os ->
  exists xs f' b t, create_and_run e f base d nmemb sizes os = Ret (Some (xs, (f', b))) /\
    hspecs (e_me e) dt nmemb (new_table sizes) os xs t /\
    (t_size t * nmemb < 2 ^ 63 ->
      (forall rows, shows_all (isz * nmemb) t rows ->
         (* b[start:stop] is the slice of the list of all rows *)
         (forall start stop step, step = None \/ step = Some 1 -> bound (t_size t) 0 start <= bound (t_size t) (t_size t) stop ->
            exists a m, py_getitem e alloc f' b (ISlice start stop step) = Ret (PyRet (a, m)) /\
              array_rows isz nmemb dt a m (list_slice rows start stop)) /\
         (* b[...] *)
         (exists a m, py_getitem e alloc f' b IEllipsis = Ret (PyRet (a, m)) /\ array_rows isz nmemb dt a m rows) /\
         (* b[i], except b[-1] *)
         (forall i, i <> -1 ->
            match list_item rows i with
            | Some v => exists a m, py_getitem e alloc f' b (IInt i) = Ret (PyRet (a, m)) /\ array_row isz nmemb dt a m v
            | None => py_getitem e alloc f' b (IInt i) = Ret (PyRaise IndexError)
            end) /\
         (* other steps are refused *)
         (forall start stop step, step <> 1 -> py_getitem e alloc f' b (ISlice start stop (Some step)) = Ret (PyRaise ValueError))) /\
      (* a row that was never written raises *)
      (forall start stop step, step = None \/ step = Some 1 ->
         (exists r, bound (t_size t) 0 start <= r < bound (t_size t) (t_size t) stop /\ absent t r) ->
         py_getitem e alloc f' b (ISlice start stop step) = Ret (PyRaise BigError))).
Proof.
  intros e alloc f base d nmemb sizes os dt isz Hal Hn Hos.
  destruct (history e f base d nmemb sizes os Hn Hos) as (xs & f' & b & t & E & S & I & _). destruct Hn.
  exists xs, f', b, t. split; [exact E|]. split; [exact S|]. intros H4. split.
  - intros rows HS. split; [|split; [|split]].
    + intros. eapply get_slice; eauto.
    + eapply get_all; eauto.
    + intros. eapply get_row; eauto.
    + intros. apply get_strided; auto.
  - intros. eapply get_absent; eauto.
Qed.

(* Bounds out of order select no row of a list. Here they give all rows from
   the start on if they are out of order by one, and raise otherwise. *)
Theorem C56_disorder : forall e alloc f base d nmemb sizes os,
  let dt := dtype_normalize (e_me e) d in let isz := itemsize (e_me e) dt in
  alloc_ok alloc -> new_block e f base d nmemb sizes -> history_ok (e_me e) dt nmemb sizes os ->
  exists xs f' b t, create_and_run e f base d nmemb sizes os = Ret (Some (xs, (f', b))) /\
    hspecs (e_me e) dt nmemb (new_table sizes) os xs t /\
    (t_size t * nmemb < 2 ^ 63 -> forall rows, shows_all (isz * nmemb) t rows ->
       forall start stop, let lo := bound (t_size t) 0 start in let hi := bound (t_size t) (t_size t) stop in
       (hi = lo - 1 -> exists a m, py_getitem e alloc f' b (ISlice start stop None) = Ret (PyRet (a, m)) /\
          array_rows isz nmemb dt a m (skipn (Z.to_nat lo) rows)) /\
       (hi < lo - 1 -> py_getitem e alloc f' b (ISlice start stop None) = Ret (PyRaise ValueError))).
Proof.
  intros e alloc f base d nmemb sizes os dt isz Hal Hn Hos.
  destruct (history e f base d nmemb sizes os Hn Hos) as (xs & f' & b & t & E & S & I & _). destruct Hn.
  exists xs, f', b, t. split; [exact E|]. split; [exact S|]. intros H4 rows HS start stop. eapply get_disorder; eauto.
Qed.

(* An example: three rows of two numbers, all written. *)
Definition ex_alloc (n : Z) : Z * mem := (5000, fun x => if (5000 <=? x) && (x <? 5000 + n) then Some "z"%byte else None).
Lemma ex_alloc_ok : alloc_ok ex_alloc.
Proof. intros n k Hk. cbn [ex_alloc fst snd]. replace ((5000 <=? 5000 + k) && (5000 + k <? 5000 + n)) with true by lia. discriminate. Qed.
Definition ex_full : list hop := [HWrite 0 ex_a ex_um].
Definition ex_sizes3 : list Z := [2; 0; 1].
Definition ex_rows : list bytes := rows_of 2 3 ex_outs.
Lemma ex_new3 : new_block ex_e ex_f1 ex_base (lit ">i4") 2 ex_sizes3.
Proof. apply ex_new; [|ex_neg]. split; [|split]; [repeat constructor; ex_neg|reflexivity|reflexivity]. Qed.
Lemma ex_full_ok : history_ok LE (lit ">i4") 2 ex_sizes3 ex_full.
Proof. unfold ex_full. cbn [history_ok sizes_after]. hist_tac. Qed.
Lemma ex_full_table xs t : hspecs LE (lit ">i4") 2 (new_table ex_sizes3) ex_full xs t -> t = with_rows (new_table ex_sizes3) 0 ex_rows.
Proof.
  intros S. inversion S as [|? ? ? ? ? ? ? S1 S2]; subst. inversion S2; subst.
  inversion S1 as [o a um um' vs outs H1 H2 H3|o a um H1| | | |]; subst; [|vm_compute in H1; discriminate H1].
  destruct (source_unique ex_e (lit ">i4") 2 ex_a ex_um vs outs ex_vs ex_outs eq_refl eq_refl H2 ex_source) as [-> ->]. reflexivity.
Qed.
Lemma ex_shows t : t = with_rows (new_table ex_sizes3) 0 ex_rows -> shows_all 8 t ex_rows.
Proof.
  intros ->. split; [reflexivity|]. split.
  - repeat constructor; vm_compute; reflexivity.
  - intros r v Hr. left. do 3 (destruct r as [|r]; [exact Hr|]). destruct r; discriminate Hr.
Qed.
Example C56_example : alloc_ok ex_alloc /\ new_block ex_e ex_f1 ex_base (lit ">i4") 2 ex_sizes3 /\ history_ok LE (lit ">i4") 2 ex_sizes3 ex_full /\
  (forall xs t, hspecs LE (lit ">i4") 2 (new_table ex_sizes3) ex_full xs t -> t_size t * 2 < 2 ^ 63 /\ shows_all 8 t ex_rows) /\
  list_slice ex_rows (Some (-2)) (Some 7) = skipn 1 ex_rows /\ bound 3 0 (Some (-2)) = 1 /\ bound 3 3 (Some 7) = 3.
Proof.
  split; [exact ex_alloc_ok|]. split; [exact ex_new3|]. split; [exact ex_full_ok|]. split; [|repeat split].
  intros xs t S. apply ex_full_table in S. split; [rewrite S; reflexivity|apply ex_shows; exact S].
Qed.
(* so b[1:0] is not empty and b[-1] is not the last row *)
Theorem C56_refuted : exists e alloc f base d nmemb sizes os xs f' b t rows,
  let dt := dtype_normalize (e_me e) d in let isz := itemsize (e_me e) dt in
  alloc_ok alloc /\ new_block e f base d nmemb sizes /\ history_ok (e_me e) dt nmemb sizes os /\
  create_and_run e f base d nmemb sizes os = Ret (Some (xs, (f', b))) /\ hspecs (e_me e) dt nmemb (new_table sizes) os xs t /\
  shows_all (isz * nmemb) t rows /\
  list_slice rows (Some 1) (Some 0) = [] /\
  (exists a m, py_getitem e alloc f' b (ISlice (Some 1) (Some 0) None) = Ret (PyRet (a, m)) /\ array_rows isz nmemb dt a m (skipn 1 rows) /\ zlen (skipn 1 rows) = 2) /\
  list_item rows (-1) <> None /\ py_getitem e alloc f' b (IInt (-1)) = Ret (PyRaise ValueError).
Proof.
  destruct (C56_disorder ex_e ex_alloc ex_f1 ex_base (lit ">i4") 2 ex_sizes3 ex_full ex_alloc_ok ex_new3 ex_full_ok) as (xs & f' & b & t & E & S & H).
  exists ex_e, ex_alloc, ex_f1, ex_base, (lit ">i4"), 2, ex_sizes3, ex_full, xs, f', b, t, ex_rows. cbv zeta.
  pose proof (ex_full_table _ _ S) as Et. pose proof (ex_shows t Et) as Sh.
  split; [exact ex_alloc_ok|]. split; [exact ex_new3|]. split; [exact ex_full_ok|]. split; [exact E|]. split; [exact S|]. split; [exact Sh|].
  split; [reflexivity|]. specialize (H ltac:(rewrite Et; reflexivity) ex_rows Sh). split; [|split; [discriminate|]].
  - destruct (H (Some 1) (Some 0)) as [H1 _]. destruct H1 as (a & m & G & A); [rewrite Et; reflexivity|]. exists a, m. split; [exact G|]. split; [|reflexivity].
    rewrite Et in A. exact A.
  - destruct (H (Some (-1)) (Some 0)) as [_ H2]. cbn [py_getitem]. change (-1 + 1) with 0. cbn [py_getitem] in H2. rewrite H2; [reflexivity|]. rewrite Et. reflexivity.
Qed.

(* ------------------------------------------------------------------ C57 *)
(* What b[start:stop] = a does, for an array of any length: its rows replace
   those from the start of the slice on, the end of the slice is ignored. If
   they do not fit in the block nothing changes. *)
Theorem C57_assignment_partial : forall e f base d nmemb sizes os,
  let dt := dtype_normalize (e_me e) d in
  new_block e f base d nmemb sizes -> history_ok (e_me e) dt nmemb sizes os ->
  exists xs f' b t, create_and_run e f base d nmemb sizes os = Ret (Some (xs, (f', b))) /\
    hspecs (e_me e) dt nmemb (new_table sizes) os xs t /\
    forall start stop step a m, step = None \/ step = Some 1 -> hop_ok (e_me e) dt nmemb (t_sizes t) (HWrite 0 a m) ->
      let lo := bound (t_size t) 0 start in
      exists r f2 b2 t2, py_setitem e f' b (ISlice start stop step) a m = Ret (r, (f2, b2)) /\ behaves e dt nmemb f2 b2 t2 /\
        (lo + nrows nmemb a <= t_size t -> r = PyRet tt /\
           exists vs outs, source (e_me e) dt nmemb a m vs outs /\ t2 = with_rows t lo (rows_of nmemb (nrows nmemb a) outs)) /\
        (t_size t < lo + nrows nmemb a -> r = PyRaise BigError /\ t2 = t).
Proof.
  intros e f base d nmemb sizes os dt Hn Hos.
  destruct (history e f base d nmemb sizes os Hn Hos) as (xs & f' & b & t & E & S & I & _). destruct Hn.
  exists xs, f', b, t. split; [exact E|]. split; [exact S|]. intros start stop step a m Hst Hok lo.
  destruct (set_slice e base dt nmemb nb_name nb_type nb_nmemb nb_chunk nb_width t f' b start stop step a m I Hst Hok) as (r & f2 & b2 & t2 & E2 & I2 & H1 & H2).
  exists r, f2, b2, t2. split; [exact E2|]. split; [|split; [exact H1|exact H2]]. eapply inv_behaves; eauto. lia.
Qed.
(* An array with as many rows as the slice. *)
Example C57_example : new_block ex_e ex_f1 ex_base (lit ">i4") 2 ex_sizes /\ history_ok LE (lit ">i4") 2 ex_sizes ex_history /\
  hop_ok LE (lit ">i4") 2 (ex_sizes ++ [3]) (HWrite 0 ex_a ex_um) /\ bound 8 0 (Some (-6)) + nrows 2 ex_a = bound 8 8 (Some 5).
Proof. split; [apply ex_new; [exact ex_lay1|ex_neg]|]. split; [exact ex_history1|]. split; [apply ex_hwrite; lia|reflexivity]. Qed.
(* b[0:1] = three rows changes row 2. *)
Theorem C57_refuted : exists e f base d nmemb sizes os xs f' b t a m start stop f2 b2 t2,
  let dt := dtype_normalize (e_me e) d in
  new_block e f base d nmemb sizes /\ history_ok (e_me e) dt nmemb sizes os /\
  create_and_run e f base d nmemb sizes os = Ret (Some (xs, (f', b))) /\ hspecs (e_me e) dt nmemb (new_table sizes) os xs t /\
  hop_ok (e_me e) dt nmemb (t_sizes t) (HWrite 0 a m) /\
  py_setitem e f' b (ISlice (Some start) (Some stop) None) a m = Ret (PyRet tt, (f2, b2)) /\ behaves e dt nmemb f2 b2 t2 /\
  0 <= start < stop /\ stop <= 2 /\ t_row t 2 <> t_row t2 2.
Proof.
  assert (Hn : new_block ex_e ex_f1 ex_base (lit ">i4") 2 ex_sizes3) by exact ex_new3.
  destruct (C57_assignment_partial ex_e ex_f1 ex_base (lit ">i4") 2 ex_sizes3 [] Hn I) as (xs & f' & b & t & E & S & H).
  inversion S; subst. assert (Hok : hop_ok LE (lit ">i4") 2 (t_sizes (new_table ex_sizes3)) (HWrite 0 ex_a ex_um)) by (apply ex_hwrite; lia).
  destruct (H (Some 0) (Some 1) None ex_a ex_um (or_introl eq_refl) Hok) as (r & f2 & b2 & t2 & E2 & B2 & H1 & _).
  destruct H1 as (-> & vs & outs & Hsrc & ->); [vm_compute; discriminate|].
  destruct (source_unique ex_e (lit ">i4") 2 ex_a ex_um vs outs ex_vs ex_outs eq_refl eq_refl Hsrc ex_source) as [-> ->].
  eexists ex_e, ex_f1, ex_base, (lit ">i4"), 2, ex_sizes3, [], [], f', b, _, ex_a, ex_um, 0, 1, f2, b2, _. cbv zeta.
  split; [exact Hn|]. split; [exact I|]. split; [exact E|]. split; [exact S|]. split; [exact Hok|]. split; [exact E2|]. split; [exact B2|].
  split; [lia|]. split; [lia|]. vm_compute. discriminate.
Qed.

(* ------------------------------------------------------------------ C58 *)
(* Creating a block from the rows of an array, whatever the number of files,
   if the memory limit is at least 1024 rows: the block has the type, the
   width and all rows of the array, valid checksums, and no other file is
   touched. *)
Theorem C58_from_array_partial : forall e alloc f bf nm d items rows N mlim, alloc_ok alloc ->
  let base := path_join bf nm in let dt := dtype_normalize (e_me e) d in let isz := itemsize (e_me e) dt in
  let n := nfile_of (zlen rows) N in
  new_from e f bf nm d items rows N -> 1024 * (isz * items) <= mlim ->
  exists f' b a m, py_create_from_array e alloc f bf nm d items rows N mlim = Ret (f', PyRet b) /\
    b_size b = zlen rows /\ b_dtype b = dt /\ b_nmemb b = items /\ b_Nfile b = n /\
    py_getitem e alloc f' b IEllipsis = Ret (PyRet (a, m)) /\ array_rows isz items dt a m rows /\
    sums_ok f' base (np_split (zlen rows) n) (b_fchecksum b) /\
    (forall q x, ~ own_file base q -> fs_get f q = Some x -> fs_get f' q = Some x).
Proof. intros e alloc f bf nm d items rows N mlim Hal base dt isz n Hn. exact (proj1 (from_array e alloc f bf nm d items rows N mlim Hal Hn)). Qed.

(* With a smaller limit the block is created but stays empty. *)
Theorem C58_wide_rows : forall e alloc f bf nm d items rows N mlim, alloc_ok alloc ->
  let dt := dtype_normalize (e_me e) d in let isz := itemsize (e_me e) dt in
  new_from e f bf nm d items rows N -> 0 <= mlim < 1024 * (isz * items) ->
  exists f' b, py_create_from_array e alloc f bf nm d items rows N mlim = Ret (f', PyRaise ValueError) /\
    big_file_open_block e f' bf nm = Ret (Some b) /\ b_size b = zlen rows /\
    (rows <> [] -> py_getitem e alloc f' b IEllipsis = Ret (PyRaise BigError)).
Proof. intros e alloc f bf nm d items rows N mlim Hal dt isz Hn. exact (proj2 (from_array e alloc f bf nm d items rows N mlim Hal Hn)). Qed.

Lemma ex_from e d items rows N : 0 < items < 2 ^ 31 -> header_type (dtype_normalize (e_me e) d) -> dt_ok (e_me e) (dtype_normalize (e_me e) d) ->
  itemsize (e_me e) (dtype_normalize (e_me e) d) * items <= e_chunk e -> e_chunk e < 2 ^ 31 ->
  Forall (fun v => length v = Z.to_nat (itemsize (e_me e) (dtype_normalize (e_me e) d) * items)) rows -> zlen rows < 2 ^ 20 -> 1 <= N <= 2 ^ 20 ->
  new_from e ex_f1 (lit "d") (lit "x/y") d items rows (Some N).
Proof.
  intros H1 H2 H3 H4 H5 H6 H7 H8. pose proof (zlen_nonneg rows). destruct C51_example as (_ & _ & _ & X1 & X2).
  constructor; auto; try nia; try reflexivity. intros q [r Hq]. destruct q as [|c q]; [reflexivity|]. injection Hq as <- Hq. destruct q; [reflexivity|discriminate].
Qed.
Lemma ex_i4_type : header_type (lit "<i4").
Proof. split; [reflexivity|]. split; [simpl; lia|]. repeat constructor; discriminate. Qed.
Example C58_example : new_from (ex_env LE 4096) ex_f1 (lit "d") (lit "x/y") (lit "=i4") 2 (repeat (lit "abcdefgh") 2500) (Some 7) /\
  1024 * (4 * 2) <= 2 ^ 14 /\ 2 ^ 14 / (4 * 2) < 2500.
Proof.
  split; [|split; vm_compute; congruence]. apply ex_from; try (split; reflexivity); try reflexivity; try (vm_compute; congruence).
  - exact ex_i4_type.
  - apply Forall_forall. intros v Hv. apply repeat_spec in Hv. rewrite Hv. reflexivity.
  - split; vm_compute; congruence.
Qed.
(* With the default limit, rows of more than 256 kilobytes. *)
Theorem C58_refuted : exists e alloc f bf nm d items rows f', alloc_ok alloc /\ new_from e f bf nm d items rows (Some 1) /\ rows <> [] /\
  py_create_from_array e alloc f bf nm d items rows (Some 1) (1024 * 1024 * 256) = Ret (f', PyRaise ValueError) /\
  exists b, big_file_open_block e f' bf nm = Ret (Some b) /\ b_size b = zlen rows /\ py_getitem e alloc f' b IEllipsis = Ret (PyRaise BigError).
Proof.
  set (rows := [repeat x00 (Z.to_nat 262148); repeat x01 (Z.to_nat 262148)]).
  assert (Hn : new_from (ex_env LE 16777216) ex_f1 (lit "d") (lit "x/y") (lit "=i4") 65537 rows (Some 1)).
  { apply ex_from; [split; reflexivity|exact ex_i4_type|split; reflexivity|discriminate|reflexivity| |reflexivity|split; discriminate].
    assert (Hi : itemsize LE (dtype_normalize LE (lit "=i4")) * 65537 = 262148) by reflexivity. cbn [e_me ex_env]. rewrite Hi.
    apply Forall_cons; [apply repeat_length|]. apply Forall_cons; [apply repeat_length|]. apply Forall_nil. }
  destruct (C58_wide_rows _ ex_alloc _ _ _ _ _ _ _ (1024 * 1024 * 256) ex_alloc_ok Hn) as (f' & b & E & O & S & G); [vm_compute; split; congruence|].
  eexists _, ex_alloc, _, _, _, _, _, rows, f'. split; [exact ex_alloc_ok|]. split; [exact Hn|]. split; [discriminate|]. split; [exact E|].
  exists b. split; [exact O|]. split; [exact S|]. apply G. discriminate.
Qed.

(* ------------------------------------------------------------------ C66 *)
(* Appending an array of k rows, to be stored in N files, to a block with any
   history: the block has k more rows, those of the array, and the old rows
   stay. *)
Theorem C66_append : forall e f base d nmemb sizes os a m N,
  let dt := dtype_normalize (e_me e) d in let k := nrows nmemb a in
  new_block e f base d nmemb sizes -> history_ok (e_me e) dt nmemb sizes os ->
  exists xs f' b t, create_and_run e f base d nmemb sizes os = Ret (Some (xs, (f', b))) /\
    hspecs (e_me e) dt nmemb (new_table sizes) os xs t /\
    (hop_ok (e_me e) dt nmemb (t_sizes t) (HWrite 0 a m) -> hd 0 (a_dims a) = k -> 0 < k -> 0 < N ->
     k * N < 2 ^ 63 -> t_size t + k < 2 ^ 63 -> zlen (t_sizes t) + N <= 2 ^ 24 ->
     exists f2 b2 vs outs files, py_append e f' b a m N = Ret (PyRet tt, (f2, b2)) /\ source (e_me e) dt nmemb a m vs outs /\
       zlen files = N /\ zsum files = k /\
       behaves e dt nmemb f2 b2 (with_rows (mkTab (t_sizes t ++ files) (t_row t) (t_sum t)) (t_size t) (rows_of nmemb k outs))).
Proof.
  intros e f base d nmemb sizes os a m N dt k Hn Hos.
  destruct (history e f base d nmemb sizes os Hn Hos) as (xs & f' & b & t & E & S & I & _). destruct Hn.
  exists xs, f', b, t. split; [exact E|]. split; [exact S|]. intros Hok Hd Hk HN H1 H2 H3.
  destruct (append_rows e base dt nmemb t f' b a m N nb_name nb_type nb_nmemb nb_chunk nb_width I Hd Hk HN H1 H2 H3 Hok) as (f2 & b2 & vs & outs & E2 & Hs & I2).
  exists f2, b2, vs, outs, (np_split k N). split; [exact E2|]. split; [exact Hs|].
  destruct (np_split_even k N HN ltac:(lia) H1) as (L1 & L2 & _). split; [exact L1|]. split; [exact L2|]. eapply inv_behaves; eauto. lia.
Qed.
Example C66_example : new_block ex_e ex_f1 ex_base (lit ">i4") 2 ex_sizes /\ history_ok LE (lit ">i4") 2 ex_sizes ex_history /\
  hop_ok LE (lit ">i4") 2 (ex_sizes ++ [3]) (HWrite 0 ex_a ex_um) /\ hd 0 (a_dims ex_a) = nrows 2 ex_a.
Proof. split; [apply ex_new; [exact ex_lay1|ex_neg]|]. split; [exact ex_history1|]. split; [apply ex_hwrite; lia|reflexivity]. Qed.

Definition all_Py := (@C56_slicing_partial, @C56_disorder, @C56_refuted, @C57_assignment_partial, @C57_refuted, @C58_from_array_partial,
  @C58_wide_rows, @C58_refuted, @C66_append).
Print Assumptions all_Py.
