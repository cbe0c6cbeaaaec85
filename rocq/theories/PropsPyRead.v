(* Property C83: Column.read into an array of the caller. *)
From Coq.Strings Require Import Byte String.
From Coq Require Import List ZArith Lia Bool ZifyBool ZifyNat.
From Verif Require Import Base BaseFacts Dtype Cast Array FS Fmt Attr Block File Split Spec AttrSpec OpenSpec HistSpec FileSpec Py PySpec
  DtypeFacts HistFacts PyRead PyReadSpec PyReadFacts Ex PropsHeader PropsHist PropsPy.
Import ListNotations.
Open Scope Z_scope.

(* Full statement: read(start, length, out) puts the rows asked for, those of
   them that exist, into out if out has that many rows of the type and width of
   the block, and otherwise raises an exception and changes nothing; no byte
   outside the elements of out changes. Only the number of rows and the size of
   an element are compared, see below. For every history of the block: if out
   has the right shape, whatever its strides, and elements of the right size,
   then they get exactly the bytes of the rows asked for, if those can be read;
   reading rows that were never written raises; a wrong number of rows or size of
   an element raises ValueError and changes nothing. *)
Theorem C83_read_into_partial : forall e f base d nmemb sizes hs ys f1 b1, let dt := dtype_normalize (e_me e) d in let isz := itemsize (e_me e) dt in
  new_block e f base d nmemb sizes -> history_ok (e_me e) dt nmemb sizes hs -> create_and_run e f base d nmemb sizes hs = Ret (Some (ys, (f1, b1))) ->
  exists t, hspecs (e_me e) dt nmemb (new_table sizes) hs ys t /\ forall start length out m,
    0 <= start < 2 ^ 63 -> -1 <= length -> start + length < 2 ^ 63 ->
    let n := asked (t_size t) start length in let addr := elem_addr (seen_as dt out) in
    (out_fits nmemb isz n out -> itemsize (e_me e) (nd_type out) = isz -> n * nmemb < 2 ^ 63 -> mapped m addr isz 0 (n * nmemb) ->
     exists r m', py_read_into e f1 b1 start length out m = Ret (r, m') /\
       (forall es, zlen es = n * nmemb -> Forall (fun v => zlen v = isz) es ->
          (forall j v, nth_error (rows_of nmemb n es) j = Some v -> shows (isz * nmemb) t (start + Z.of_nat j) v) ->
          r = PyRet tt /\ wrote m m' addr isz 0 es) /\
       ((exists k, start <= k < start + n /\ absent t k) -> r = PyRaise BigError) /\
       (r = PyRet tt \/ r = PyRaise BigError) /\
       (forall x, ~ in_elems addr isz 0 (n * nmemb) x -> m' x = m x)) /\
    (nd_dims out <> [] -> (forall k rest, nd_dims out = k :: rest -> k <> n) \/ itemsize (e_me e) (nd_type out) <> isz ->
     py_read_into e f1 b1 start length out m = Ret (PyRaise ValueError, m)).
Proof.
  intros e f base d nmemb sizes hs ys f1 b1 dt isz HB Hh E.
  destruct (history e f base d nmemb sizes hs HB Hh) as (ys' & f1' & b1' & t & E' & S & I & _). rewrite E in E'. injection E' as <- <- <-. fold dt in S, I. fold isz in I.
  exists t. split; [exact S|]. intros start length out m H1 H2 H3 n addr. destruct HB. fold dt in nb_type, nb_dt, nb_chunk, nb_width. fold isz in nb_chunk, nb_width.
  assert (Hnorm : dtype_normalize (e_me e) dt = dt) by apply normalize_idem.
  split.
  - intros Hf Hi Hn Hm. pose proof (of_pos _ _ _ _ Hf) as Hp. destruct (Z.eq_dec n 0) as [Ez|Hz].
    + rewrite Ez in *. exists (PyRet tt), m. split.
      { apply (into_none e base dt nmemb nb_nmemb nb_width nb_dt t); auto. split; [lia|]. pose proof (zsum_nonneg _ (hl_nonneg _ _ (wb_layout _ _ _ _ (hv_wb _ _ _ _ _ _ _ _ I)))).
        unfold n, asked, t_size in *. destruct (length =? -1); [lia|]. destruct (zsum (t_sizes t) <? start + length) eqn:?; lia. }
      split; [|split; [intros (k & Hk & _); lia|split; [left; reflexivity|reflexivity]]].
      intros es L F _. destruct es as [|x es]; [|rewrite zlen_cons in L; pose proof (zlen_nonneg es); lia]. split; [reflexivity|]. split; [intros [|j] v Hj; discriminate Hj|reflexivity].
    + destruct (into_read e base dt nmemb nb_name nb_type nb_nmemb nb_chunk nb_width nb_dt Hnorm t f1 b1 start length out m I H1 H2 H3 Hf Hi ltac:(fold n; lia) Hn Hm) as (r & m' & E1 & R1 & R2 & R3 & R4).
      exists r, m'. split; [exact E1|]. split; [|auto]. intros es L F Sh. apply R1; auto. eapply Forall_impl; [|exact F]. cbv beta. unfold zlen. fold isz. intros v Hv. lia.
  - intros Hd H. apply (into_mismatch e base dt nmemb t); auto.
Qed.
Print Assumptions C83_read_into_partial.

(* Three rows of two big-endian integers; an array of two rows stored in reverse. *)
Definition ex_run : fs * block := match create_and_run ex_e ex_f1 ex_base (lit ">i4") 2 ex_sizes3 ex_full with Ret (Some (_, st)) => st | _ => ([], ex_b) end.
Lemma ex_ran : exists ys, create_and_run ex_e ex_f1 ex_base (lit ">i4") 2 ex_sizes3 ex_full = Ret (Some (ys, ex_run)).
Proof. eexists. vm_compute. reflexivity. Qed.
Definition ex_out : ndarray := mkNd 1000 (lit ">i4") [2; 2] [-16; 4].
Lemma ex_in x : 500 <= x < 1500 -> ex_um x <> None.
Proof. intros H. unfold ex_um. replace ((0 <=? x) && (x <? 2000)) with true by lia. discriminate. Qed.
Lemma ex_out_addr k : 0 <= k < 4 -> elem_addr (seen_as (lit ">i4") ex_out) k = 1000 - 16 * (k / 2) + 4 * (k mod 2).
Proof. intros H. enum k 4%nat; reflexivity. Qed.
Lemma ex_out_fits : out_fits 2 4 2 ex_out.
Proof.
  constructor; try reflexivity; try discriminate; try (split; reflexivity).
  - intros _. repeat constructor.
  - intros i j Hi Hj. change (seen_as [] ex_out) with (mkArray 1000 [] [2; 2] [-16; 4] 4). 
    assert (Ei : i = 0 \/ i = 1 \/ i = 2) by lia. assert (Ej : j = 1 \/ j = 2 \/ j = 3) by lia.
    destruct Ei as [->|[->| ->]], Ej as [->|[->| ->]]; try lia; vm_compute; intuition congruence.
Qed.
Example C83_example : new_block ex_e ex_f1 ex_base (lit ">i4") 2 ex_sizes3 /\ history_ok LE (lit ">i4") 2 ex_sizes3 ex_full /\
  (exists ys, create_and_run ex_e ex_f1 ex_base (lit ">i4") 2 ex_sizes3 ex_full = Ret (Some (ys, ex_run))) /\
  asked 3 1 5 = 2 /\ out_fits 2 4 2 ex_out /\ itemsize LE (nd_type ex_out) = 4 /\ mapped ex_um (elem_addr (seen_as (lit ">i4") ex_out)) 4 0 4.
Proof.
  split; [exact ex_new3|]. split; [exact ex_full_ok|]. split; [exact ex_ran|]. split; [reflexivity|]. split; [exact ex_out_fits|]. split; [reflexivity|].
  intros x (i & Hi & Hx). apply ex_in. rewrite ex_out_addr in Hx by lia. lia.
Qed.

Lemma ran_into (x : out (pyres unit * mem)) (P : mem -> bool) : match x with Ret (PyRet tt, m') => P m' | _ => false end = true -> exists m', x = Ret (PyRet tt, m') /\ P m' = true.
Proof. destruct x as [[[[]|u] m]| |]; intros H; try discriminate H. eauto. Qed.

(* An array of native integers for a block of big-endian ones: read returns, and
   the first element has the bytes of the file, not the number. *)
Definition ex_native : ndarray := mkNd 1000 (lit "<i4") [1; 2] [8; 4].
Lemma ex_native_fits : out_fits 2 4 1 ex_native.
Proof.
  constructor; try reflexivity; try discriminate; try (split; reflexivity); [intros _; repeat constructor|].
  intros i j Hi Hj. change (1 * 2) with 2 in Hj. assert (Ei : i = 0) by lia. assert (Ej : j = 1) by lia. rewrite Ei, Ej. left. vm_compute. congruence.
Qed.
Lemma ex_norm : dtype_normalize (e_me ex_e) (lit ">i4") = lit ">i4". Proof. vm_compute. reflexivity. Qed.
Lemma ex_isz : itemsize (e_me ex_e) (dtype_normalize (e_me ex_e) (lit ">i4")) = 4. Proof. vm_compute. reflexivity. Qed.
Lemma ex_native_addr dt : elem_addr (seen_as dt ex_native) 0 = 1000. Proof. vm_compute. reflexivity. Qed.
Definition obytes_eqb (x : option bytes) (l : bytes) : bool := match x with Some y => bytes_eqb y l | None => false end.
Theorem C83_type_refuted : exists e f base d nmemb sizes hs ys f1 b1 out m m' v r, let dt := dtype_normalize (e_me e) d in
  new_block e f base d nmemb sizes /\ history_ok (e_me e) dt nmemb sizes hs /\ create_and_run e f base d nmemb sizes hs = Ret (Some (ys, (f1, b1))) /\
  dt_ok (e_me e) (nd_type out) /\ nd_type out <> dt /\ out_fits nmemb (itemsize (e_me e) dt) 1 out /\
  py_read_into e f1 b1 0 1 out m = Ret (PyRet tt, m') /\
  (exists rest, data_file f1 base 0 = Some (v ++ rest)) /\ converts (e_me e) dt (nd_type out) v r /\ v <> r /\
  load m' (elem_addr (seen_as dt out) 0) (Z.to_nat (itemsize (e_me e) dt)) = Some v.
Proof.
  destruct ex_ran as (ys & Er).
  destruct (ran_into (py_read_into ex_e (fst ex_run) (snd ex_run) 0 1 ex_native ex_um) (fun m' => obytes_eqb (load m' 1000 4) (nth 0 ex_outs []))) as (m' & E & Hl); [vm_compute; reflexivity|].
  exists ex_e, ex_f1, ex_base, (lit ">i4"), 2, ex_sizes3, ex_full, ys, (fst ex_run), (snd ex_run), ex_native, ex_um, m', (nth 0 ex_outs []), (nth 0 ex_vs []). cbv zeta.
  split; [exact ex_new3|]. split; [exact ex_full_ok|]. split; [rewrite Er; destruct ex_run; reflexivity|]. split; [exact ex_dt|]. split; [vm_compute; discriminate|].
  split; [|split; [exact E|]].
  - rewrite ex_isz. exact ex_native_fits.
  - split; [eexists; vm_compute; reflexivity|]. split; [vm_compute; reflexivity|]. split; [vm_compute; discriminate|].
    rewrite ex_native_addr, ex_isz. change (Z.to_nat 4) with 4%nat. unfold obytes_eqb in Hl. destruct (load m' 1000 4) as [l|]; [|discriminate Hl]. apply bytes_eqb_eq in Hl. rewrite Hl. reflexivity.
Qed.
Print Assumptions C83_type_refuted.

(* An array of one row of four elements for a block of two elements per row:
   read(0, 1, out) returns, and row 1 is read too. *)
Definition ex_wide : ndarray := mkNd 1000 (lit ">i4") [1; 4] [16; 4].
Lemma ex_wide_addr dt : elem_addr (seen_as dt ex_wide) 2 = 1008. Proof. vm_compute. reflexivity. Qed.
Lemma ex_row_len : length (nth 1 ex_rows []) = 8%nat. Proof. vm_compute. reflexivity. Qed.
Theorem C83_shape_refuted : exists e f base d nmemb sizes hs ys f1 b1 out m m' v, let dt := dtype_normalize (e_me e) d in
  new_block e f base d nmemb sizes /\ history_ok (e_me e) dt nmemb sizes hs /\ create_and_run e f base d nmemb sizes hs = Ret (Some (ys, (f1, b1))) /\
  nd_type out = dt /\ ~ out_fits nmemb (itemsize (e_me e) dt) 1 out /\
  py_read_into e f1 b1 0 1 out m = Ret (PyRet tt, m') /\
  stored_row f1 base sizes (itemsize (e_me e) dt * nmemb) 1 = Some v /\
  load m' (elem_addr (seen_as dt out) nmemb) (length v) = Some v /\ load m (elem_addr (seen_as dt out) nmemb) (length v) <> Some v.
Proof.
  destruct ex_ran as (ys & Er).
  destruct (ran_into (py_read_into ex_e (fst ex_run) (snd ex_run) 0 1 ex_wide ex_um) (fun m' => obytes_eqb (load m' 1008 8) (nth 1 ex_rows []))) as (m' & E & Hl); [vm_compute; reflexivity|].
  exists ex_e, ex_f1, ex_base, (lit ">i4"), 2, ex_sizes3, ex_full, ys, (fst ex_run), (snd ex_run), ex_wide, ex_um, m', (nth 1 ex_rows []). cbv zeta.
  split; [exact ex_new3|]. split; [exact ex_full_ok|]. split; [rewrite Er; destruct ex_run; reflexivity|]. split; [rewrite ex_norm; reflexivity|].
  split; [intros X; apply of_rows in X; change (1 = 1 /\ 4 = 2) in X; lia|]. split; [exact E|]. split; [vm_compute; reflexivity|].
  rewrite ex_wide_addr, ex_row_len. split; [|vm_compute; discriminate]. unfold obytes_eqb in Hl. destruct (load m' 1008 8) as [l|]; [|discriminate Hl]. apply bytes_eqb_eq in Hl. rewrite Hl. reflexivity.
Qed.
Print Assumptions C83_shape_refuted.
