(* Proofs about creating and extending blocks from Python. *)
From Coq.Strings Require Import Byte String.
From Coq Require Import List ZArith Lia Bool ZifyBool ZifyNat.
From Verif Require Import Base BaseFacts Dtype Cast Array FS Fmt Attr Block File Split Spec AttrSpec OpenSpec HistSpec FileSpec Py PySpec
  DtypeFacts ArrayFacts SeekFacts ConvFacts WriteFacts ReadFacts IOFacts OpenFacts HistFacts AggFacts MpiFacts StepFacts MiscFacts FileFacts FrameFacts RecNewFacts PyFacts.
Import ListNotations.
Open Scope Z_scope.
Local Open Scope out_scope.
Ltac Zify.zify_post_hook ::= Z.div_mod_to_equations.

(* ------------------------------------------------------------------ a new block *)
Lemma make_block e f bf nm d nmemb sizes : let base := path_join bf nm in let dt := dtype_normalize (e_me e) d in
  block_name base -> layout_ok sizes -> zlen sizes <= 2 ^ 24 -> way_made f (resolve bf) -> creatable f base -> fs_get f (attr1_path base) = None ->
  0 < nmemb -> dt_ok (e_me e) dt ->
  exists f' b, big_file_create_block e f bf nm (Some d) nmemb (zlen sizes) sizes = Ret (f', Some b) /\
    hinv e base dt nmemb (itemsize (e_me e) dt * nmemb) (new_table sizes) f' b /\ sums_ok f' base sizes (b_fchecksum b) /\
    (forall q n, ~ own_file base q -> fs_get f q = Some n -> fs_get f' q = Some n) /\
    (forall q n, ~ own_file base q -> fs_get f q = None -> fs_get f' q = Some n -> n = Dir /\ prefix_of q (resolve base)).
Proof.
  intros base dt HB Hlay HN Hmade [W B] Ha1 Hnm Hdt. pose proof HB as (B1 & B2 & B3). pose proof (join_len bf nm) as Hjl. fold base in Hjl.
  assert (Hne : base <> []) by (intros X; rewrite X in B1; discriminate B1).
  destruct (mksubdir_succeeds f bf nm) as (f1 & E1 & M1); [lia|exact Hne|exact Hmade|exact W|].
  destruct (mksubdir_new f bf nm 0 f1 ltac:(lia) E1) as [N1 _]. fold base in M1, N1.
  assert (Hown : forall p, in_block base p -> exists c, p = resolve base ++ [c]) by (intros p Hp; apply in_block_app; exact Hp).
  assert (Hnew : forall p, own_file base p -> fs_get f1 p <> Some Dir).
  { intros p Hp X. destruct (Hown p (or_introl Hp)) as (c & Ep). destruct (fs_get f p) as [n|] eqn:E.
    - rewrite (proj1 N1 _ _ E) in X. injection X as ->. exact (B p Hp E).
    - destruct (proj2 N1 _ _ E X) as [_ Y]. rewrite Ep in Y. exact (not_longer _ _ Y). }
  assert (Ha : fs_get f1 (attr1_path base) = None).
  { destruct (fs_get f1 (attr1_path base)) as [n|] eqn:E; [|reflexivity]. destruct (proj2 N1 _ _ Ha1 E) as [_ Y].
    destruct (Hown _ (or_intror eq_refl)) as (c & Ep). rewrite Ep in Y. destruct (not_longer _ _ Y). }
  assert (D1 : block_dir f1 base).
  { split; [apply M1, prefix_refl|]. split; [apply Hnew; left; auto|]. split; [apply Hnew; right; left; auto|].
    intros i Hi. apply Hnew. right. right. eauto. }
  destruct (hist_create e f1 base d nmemb sizes HB D1 Hlay HN Ha Hnm Hdt) as (f2 & b & E2 & I & Hs).
  exists f2, b. unfold big_file_create_block. rewrite E1. change (0 =? 0) with true. cbv iota. fold base. rewrite E2.
  split; [reflexivity|]. split; [exact I|]. split; [exact Hs|].
  pose proof (create_frames _ _ _ _ _ _ _ _ _ B2 E2) as Fr.
  split.
  - intros q n Hq Hf. rewrite Fr; [apply N1; exact Hf|exact Hq].
  - intros q n Hq Hf. rewrite Fr; [apply N1; exact Hf|exact Hq].
Qed.

Lemma np_layout size N : 0 <= N -> 0 <= size -> (N = 0 -> size = 0) -> size * N < 2 ^ 63 -> size < 2 ^ 63 -> N <= 2 ^ 24 ->
  layout_ok (np_split size N) /\ zlen (np_split size N) = N /\ zsum (np_split size N) = size.
Proof.
  intros H1 H2 H3 H4 H5 H6. destruct (Z.eq_dec N 0) as [->|Hn].
  - rewrite (H3 eq_refl). cbn. split; [|split; reflexivity]. repeat split; cbn; try lia; constructor.
  - destruct (np_split_even size N ltac:(lia) H2 H4) as (L & S & F). split; [|split; assumption]. split; [|split; lia].
    eapply Forall_impl; [|exact F]. intros s Hs. cbn beta in Hs. pose proof (Z.div_pos size N ltac:(lia) ltac:(lia)). lia.
Qed.

Section New.
Variables (e : env) (base dt : bytes) (nmemb : Z).
Let isz := itemsize (e_me e) dt.
Let w := isz * nmemb.
Hypothesis Hbn : block_name base.
Hypothesis Hty : header_type dt.
Hypothesis Hnm31 : 0 < nmemb < 2 ^ 31.
Hypothesis Hwc : w <= e_chunk e.
Hypothesis Hw31 : w < 2 ^ 31.
Hypothesis Hdt : dt_ok (e_me e) dt.
Notation inv := (hinv e base dt nmemb w).
Variable alloc : Z -> Z * mem.

(* the memory numpy.array leaves *)
Definition copied (p : Z) (m : mem) (D : bytes) : mem :=
  fun x => if (p <=? x) && (x <? p + zlen D) then nth_error D (Z.to_nat (x - p)) else m x.
Lemma load_copied_at p m D : forall k l, (exists pre post, D = pre ++ l ++ post /\ length pre = k) -> load (copied p m D) (p + Z.of_nat k) (length l) = Some l.
Proof.
  intros k l. revert k. induction l as [|c l IH]; intros k (pre & post & E & Hk); [reflexivity|]. cbn [length load].
  assert (Hc : copied p m D (p + Z.of_nat k) = Some c).
  { unfold copied. rewrite E. rewrite !zlen_app, zlen_cons. pose proof (zlen_nonneg l). pose proof (zlen_nonneg post). unfold zlen at 1. rewrite Hk.
    replace ((p <=? p + Z.of_nat k) && _) with true by lia. replace (Z.to_nat (p + Z.of_nat k - p)) with k by lia.
    rewrite nth_error_app2 by lia. rewrite Hk, Nat.sub_diag. reflexivity. }
  rewrite Hc. replace (p + Z.of_nat k + 1) with (p + Z.of_nat (S k)) by lia.
  rewrite (IH (S k)); [reflexivity|]. exists (pre ++ [c]), post. split; [rewrite E, <- app_assoc; reflexivity|]. rewrite app_length. cbn. lia.
Qed.
Lemma load_copied p m D : load (copied p m D) p (length D) = Some D.
Proof. pose proof (load_copied_at p m D 0 D) as H. rewrite Z.add_0_r in H. apply H. exists [], []. rewrite app_nil_r. auto. Qed.

Lemma np_copy_eq d rows : dtype_normalize (e_me e) d = dt ->
  np_copy e alloc d nmemb rows = Ret (pyarray e dt nmemb (fst (alloc (zlen (concat rows)))) (zlen rows),
    copied (fst (alloc (zlen (concat rows)))) (snd (alloc (zlen (concat rows)))) (concat rows)).
Proof.
  intros Ed. unfold np_copy. rewrite Ed. fold (dims_of nmemb (zlen rows)). destruct (alloc (zlen (concat rows))) as [p m]. cbn [fst snd].
  rewrite (py_init e dt nmemb p d (zlen rows) Ed). reflexivity.
Qed.
Lemma copy_source p m rows : rows <> [] -> Forall (fun v => length v = Z.to_nat w) rows ->
  let es := group (Z.to_nat isz) (Z.to_nat (zlen rows * nmemb)) (concat rows) in
  source (e_me e) dt nmemb (pyarray e dt nmemb p (zlen rows)) (copied p m (concat rows)) es es /\ rows_of nmemb (zlen rows) es = rows.
Proof.
  intros Hne HF es. assert (Hi : 0 < isz) by apply Hdt. assert (Hn : 0 < zlen rows) by (destruct rows; [congruence|rewrite zlen_cons; pose proof (zlen_nonneg rows); lia]).
  pose proof (concat_zlen e dt nmemb Hnm31 Hdt rows HF) as Hcl. fold isz w in Hcl.
  assert (Hln : length (concat rows) = (Z.to_nat isz * Z.to_nat (zlen rows * nmemb))%nat) by (unfold zlen, w in *; nia).
  assert (Hle : zlen es = zlen rows * nmemb) by (unfold es, zlen at 1; rewrite DtypeFacts.group_length; nia).
  split; [|apply (elems_rows e dt nmemb Hnm31 Hdt); auto]. split; [rewrite py_nrows by exact Hnm31; exact Hle|]. split; [|apply converts_selfs].
  cbn [a_dtype pyarray]. fold isz. apply (holds_of_load _ _ isz p); [lia|apply group_widths; exact Hln| |].
  - intros j Hj. apply (py_addr e dt nmemb Hnm31); lia.
  - rewrite Z.mul_0_l, Z.add_0_r, Hle. unfold es. rewrite concat_group by lia. replace (Z.to_nat (zlen rows * nmemb * isz)) with (length (concat rows)) by (rewrite Hln; nia). apply load_copied.
Qed.

Lemma write_rows t f b o rows p m : inv t f b -> rows <> [] -> Forall (fun v => length v = Z.to_nat w) rows -> 0 <= o -> o + zlen rows <= t_size t -> t_size t * nmemb < 2 ^ 63 ->
  exists f' b', py_write e f b o (pyarray e dt nmemb p (zlen rows)) (copied p m (concat rows)) = Ret (PyRet tt, (f', b')) /\
    inv (with_rows t o rows) f' b' /\ frames base f f' /\
    ((forall q, o <= q < o + zlen rows -> t_row t q = None) -> sums_ok f base (t_sizes t) (b_fchecksum b) -> sums_ok f' base (t_sizes t) (b_fchecksum b')).
Proof.
  intros I Hne HF Ho Hs H4. destruct (hinv_size _ _ _ _ _ _ _ _ I) as (_ & _ & _ & HL). pose proof (hl_small _ _ HL) as H63.
  destruct (copy_source p m rows Hne HF) as [Hsrc Hrows]. set (es := group _ _ _) in *.
  assert (Hn : 0 < zlen rows) by (destruct rows; [congruence|rewrite zlen_cons; pose proof (zlen_nonneg rows); lia]).
  set (a := pyarray e dt nmemb p (zlen rows)) in *. set (um := copied p m (concat rows)) in *.
  assert (Hnr : nrows nmemb a = zlen rows) by (apply py_nrows; exact Hnm31).
  assert (Hok : hop_ok (e_me e) dt nmemb (t_sizes t) (HWrite o a um)).
  { unfold t_size in *. split; [lia|]. split; [cbn [a_size pyarray a]; nia|]. split; [apply (py_ok e dt nmemb Hnm31); exact Hn|]. split; [exact Hdt|]. split; [left; reflexivity|].
    split; [exists es, es; exact Hsrc|]. intros _. rewrite Hnr. apply (py_disjoint e dt nmemb Hnm31 Hdt). exact Hn. }
  destruct (hist_step e base dt nmemb w Hbn Hty ltac:(lia) Hwc Hw31 t f b _ I Hok) as (x & f2 & b2 & t2 & E2 & S2 & I2 & Z2 & W2).
  pose proof (hstep_frames e f b (HWrite o a um) x f2 b2 ltac:(rewrite (hl_Nfile _ _ HL); apply zlen_nonneg) ltac:(discriminate) E2) as [Fr _].
  rewrite (hv_base _ _ _ _ _ _ _ _ I) in Fr.
  inversion S2 as [o0 a0 um0 um' vs outs H1 H2 H3|o0 a0 um0 H1| | | |]; subst; [|rewrite Hnr in H1; lia].
  destruct (source_unique e dt nmemb a um vs outs es es ltac:(lia) ltac:(apply Hdt) H2 Hsrc) as [-> ->]. rewrite Hnr, Hrows in *.
  exists f2, b2. split; [|split; [exact I2|split; [exact Fr|]]].
  - unfold py_write. cbn [hstep] in E2. destruct (big_block_seek b _ o) as [[rc q]|u|]; cbn [bind] in *; try discriminate E2.
    destruct (negb (rc =? 0)) eqn:Er; [assert (rc = 0) by congruence; lia|].
    destruct (big_block_write e f b q a um) as [[[[[rc2 f3] b3] p3] m3]|u|]; cbn [bind] in *; try discriminate E2. assert (rc2 = 0) by congruence. assert (f3 = f2) by congruence. assert (b3 = b2) by congruence. subst. reflexivity.
  - intros Hq Hso. apply W2; [|exact Hso]. cbn [once]. intros _. rewrite Hnr. exact Hq.
Qed.

(* ------------------------------------------------------------------ the chunks *)
Definition filled (t : table) (rows : list bytes) (i : Z) : Prop :=
  forall r, 0 <= r -> t_row t r = if r <? i then nth_error rows (Z.to_nat r) else None.
Lemma filled_more t rows i L : 0 <= i <= zlen rows -> 0 < L -> filled t rows i ->
  filled (with_rows t i (firstn (Z.to_nat L) (skipn (Z.to_nat i) rows))) rows (Z.min (i + L) (zlen rows)).
Proof.
  intros Hi HL H r Hr. cbn [with_rows t_row].
  assert (Hl : zlen (firstn (Z.to_nat L) (skipn (Z.to_nat i) rows)) = Z.min L (zlen rows - i)) by (unfold zlen in *; rewrite firstn_length, skipn_length; lia). rewrite Hl.
  destruct ((i <=? r) && (r <? i + Z.min L (zlen rows - i))) eqn:E.
  - replace (r <? Z.min (i + L) (zlen rows)) with true by lia.
    assert (Hnth : forall (l : list bytes) k n j, (j < n)%nat -> nth_error (firstn n (skipn k l)) j = nth_error l (k + j)).
    { intros l k n j Hj. transitivity (nth_error (skipn k l) j).
      - revert n j Hj. generalize (skipn k l). clear. intros l. induction l as [|y l IH]; intros [|n] [|j] Hj; try lia; cbn; auto. apply IH. lia.
      - revert l. clear. induction k as [|k IH]; intros [|y l]; cbn; auto. destruct j; reflexivity. }
    rewrite Hnth by lia. f_equal. lia.
  - rewrite (H r Hr). destruct (r <? i) eqn:E1, (r <? Z.min (i + L) (zlen rows)) eqn:E2; try reflexivity; lia.
Qed.
Lemma filled_all t rows i : zlen rows <= i -> filled t rows i -> forall r, 0 <= r -> t_row t r = nth_error rows (Z.to_nat r).
Proof.
  intros Hi H r Hr. rewrite (H r Hr). destruct (r <? i) eqn:E; [reflexivity|]. symmetry. apply nth_error_None. unfold zlen in Hi. lia.
Qed.

Lemma write_chunks d rows L : dtype_normalize (e_me e) d = dt -> 0 < L -> Forall (fun v => length v = Z.to_nat w) rows ->
  forall fuel t f b i, Z.max 0 (zlen rows - i) < Z.of_nat fuel -> 0 <= i -> inv t f b -> t_size t = zlen rows -> t_size t * nmemb < 2 ^ 63 ->
  filled t rows (Z.min i (zlen rows)) -> sums_ok f base (t_sizes t) (b_fchecksum b) ->
  exists t' f' b', py_write_chunks e alloc f b d nmemb rows i L fuel = Ret (PyRet tt, (f', b')) /\
    inv t' f' b' /\ t_sizes t' = t_sizes t /\ (forall r, 0 <= r -> t_row t' r = nth_error rows (Z.to_nat r)) /\ frames base f f' /\
    sums_ok f' base (t_sizes t) (b_fchecksum b').
Proof.
  intros Ed HL HF. induction fuel as [|k IH]; intros t f b i Hfu Hi I Hsz H4 Hfi Hso.
  - lia.
  - cbn [py_write_chunks]. destruct (zlen rows <=? i) eqn:E.
    + exists t, f, b. split; [reflexivity|]. split; [exact I|]. split; [reflexivity|]. split; [|split; [apply frames_refl|exact Hso]].
      apply (filled_all t rows (Z.min i (zlen rows))); [lia|exact Hfi].
    + set (part := firstn (Z.to_nat L) (skipn (Z.to_nat i) rows)).
      assert (Hpl : zlen part = Z.min L (zlen rows - i)) by (unfold part, zlen in *; rewrite firstn_length, skipn_length; lia).
      assert (Hne : part <> []) by (intros X; rewrite X in Hpl; cbn in Hpl; lia).
      assert (HFp : Forall (fun v => length v = Z.to_nat w) part).
      { unfold part. apply Forall_forall. intros v Hv. rewrite Forall_forall in HF. apply HF. rewrite <- (firstn_skipn (Z.to_nat i) rows). apply in_or_app. right.
        rewrite <- (firstn_skipn (Z.to_nat L) (skipn (Z.to_nat i) rows)). apply in_or_app. left. exact Hv. }
      rewrite (np_copy_eq d part Ed). cbn [bind].
      destruct (write_rows t f b i part (fst (alloc (zlen (concat part)))) (snd (alloc (zlen (concat part)))) I Hne HFp Hi ltac:(lia) H4) as (f1 & b1 & E1 & I1 & F1 & S1).
      rewrite E1. cbn [bind]. replace (Z.min i (zlen rows)) with i in Hfi by lia.
      destruct (IH (with_rows t i part) f1 b1 (i + L)) as (t2 & f2 & b2 & E2 & I2 & Z2 & R2 & F2 & S2); auto; try lia.
      * apply filled_more; auto. lia.
      * cbn [with_rows t_sizes]. apply S1; [|exact Hso]. intros q Hq. rewrite (Hfi q) by lia. replace (q <? i) with false by lia. reflexivity.
      * exists t2, f2, b2. split; [exact E2|]. split; [exact I2|]. split; [exact Z2|]. split; [exact R2|]. split; [eapply frames_trans; eauto|exact S2].
Qed.
End New.

(* ------------------------------------------------------------------ create_from_array *)
Lemma open_clean e base dt nmemb w t f b : block_name base -> header_type dt -> nmemb < 2 ^ 31 -> hinv e base dt nmemb w t f b -> b_dirty b = false ->
  exists b', big_block_open e f base = Ret (Some b') /\ hinv e base dt nmemb w t f b' /\
    (sums_ok f base (t_sizes t) (b_fchecksum b) -> sums_ok f base (t_sizes t) (b_fchecksum b')).
Proof.
  intros Hb Ht Hn I Hd. destruct (hist_reopen e base dt nmemb w Hb Ht Hn t f b I) as (f' & b' & E & I' & S).
  cbn [hstep] in E. unfold big_block_close in E. rewrite (clean_flush e f b Hd) in E by apply I. cbn [bind] in E.
  rewrite (hv_base _ _ _ _ _ _ _ _ I) in E. destruct (big_block_open e f base) as [[b2|]| |]; try discriminate E.
  cbn [bind] in E. injection E as <- <-. eauto.
Qed.

Lemma nfile_bounds size N : 0 <= size -> match N with Some n => 0 <= n <= 2 ^ 24 /\ (n = 0 -> size = 0) /\ size * n < 2 ^ 63 | None => size < 2 ^ 43 end ->
  let n := nfile_of size N in 0 <= n <= 2 ^ 24 /\ (n = 0 -> size = 0) /\ size * n < 2 ^ 63.
Proof.
  intros Hs H. destruct N as [n|]; cbn [nfile_of]; [exact H|]. change (2 ^ 43) with 8796093022208 in H. change (2 ^ 24) with 16777216. change (2 ^ 63) with 9223372036854775808.
  assert (0 <= (size + 33554431) / 33554432 <= 262144) by lia. repeat split; try lia. nia.
Qed.

Lemma from_array e alloc f bf nm d items rows N mlim : alloc_ok alloc ->
  let base := path_join bf nm in let dt := dtype_normalize (e_me e) d in let isz := itemsize (e_me e) dt in let n := nfile_of (zlen rows) N in
  new_from e f bf nm d items rows N ->
  (1024 * (isz * items) <= mlim -> exists f' b a m, py_create_from_array e alloc f bf nm d items rows N mlim = Ret (f', PyRet b) /\
     b_size b = zlen rows /\ b_dtype b = dt /\ b_nmemb b = items /\ b_Nfile b = n /\
     py_getitem e alloc f' b IEllipsis = Ret (PyRet (a, m)) /\ array_rows isz items dt a m rows /\
     sums_ok f' base (np_split (zlen rows) n) (b_fchecksum b) /\
     (forall q x, ~ own_file base q -> fs_get f q = Some x -> fs_get f' q = Some x)) /\
  (0 <= mlim < 1024 * (isz * items) -> exists f' b, py_create_from_array e alloc f bf nm d items rows N mlim = Ret (f', PyRaise ValueError) /\
     big_file_open_block e f' bf nm = Ret (Some b) /\ b_size b = zlen rows /\
     (rows <> [] -> py_getitem e alloc f' b IEllipsis = Ret (PyRaise BigError))).
Proof.
  intros Hal base dt isz n []. fold base in nf_name, nf_free, nf_attr1. fold dt in nf_type, nf_dt, nf_chunk, nf_width, nf_rows. fold isz in nf_chunk, nf_width, nf_rows.
  assert (Hi : 0 < isz) by apply nf_dt. pose proof (zlen_nonneg rows) as Hz.
  destruct (nfile_bounds (zlen rows) N Hz) as (Hn1 & Hn2 & Hn3).
  { destruct N as [k|]; [|exact nf_N]. destruct nf_N as (X1 & X2 & X3). split; [exact X1|]. split; [|exact X3]. intros X. rewrite (X2 X). reflexivity. }
  fold n in Hn1, Hn2, Hn3.
  destruct (np_layout (zlen rows) n ltac:(lia) Hz Hn2 Hn3 ltac:(nia) ltac:(lia)) as (Hlay & Hll & Hsum).
  destruct (make_block e f bf nm d items (np_split (zlen rows) n) nf_name Hlay ltac:(lia) nf_made nf_free nf_attr1 ltac:(lia) nf_dt) as (f1 & b1 & E1 & I1 & S1 & Fr1 & _).
  fold base dt isz in I1, Fr1, S1. rewrite Hll in E1.
  assert (Ec : py_create e f bf nm d items (zlen rows) n = Ret (f1, PyRet b1)).
  { unfold py_create. replace (n <? 0) with false by lia. replace ((n =? 0) && negb (zlen rows =? 0)) with false by lia. rewrite E1. reflexivity. }
  assert (Hts : t_size (new_table (np_split (zlen rows) n)) = zlen rows) by exact Hsum.
  assert (Hpy : py_create_from_array e alloc f bf nm d items rows N mlim =
    '(r, (f, b)) <- (if py_itemlimit mlim (isz * items) =? 0 then Ret (PyRaise ValueError, (f1, b1))
                     else if py_itemlimit mlim (isz * items) <? 0 then Ret (PyRet tt, (f1, b1))
                     else py_write_chunks e alloc f1 b1 d items rows 0 (py_itemlimit mlim (isz * items)) (S (length rows))) ;;
    '(r, (f, _)) <- py_exit e f b r ;;
    match r with
    | PyRaise x => Ret (f, PyRaise x)
    | PyRet _ => ob <- big_file_open_block e f bf nm ;; Ret (f, match ob with Some b => PyRet b | None => PyRaise BigError end)
    end).
  { unfold py_create_from_array. fold dt isz. change (32 * 1024 * 1024) with 33554432. replace (zlen rows + 33554432 - 1) with (zlen rows + 33554431) by lia.
    change (match N with Some k => k | None => (zlen rows + 33554431) / 33554432 end) with n. rewrite Ec. reflexivity. }
  rewrite Hpy. clear Hpy. unfold py_itemlimit. set (w := isz * items) in *. assert (Hw : 0 < w) by (unfold w; nia). split; intros Hm.
  - set (L := mlim / w / 1024 * 1024). assert (HL : 0 < L).
    { unfold L. assert (1024 <= mlim / w) by (apply Z.div_le_lower_bound; lia). lia. }
    replace (L =? 0) with false by lia. replace (L <? 0) with false by lia.
    destruct (write_chunks e base dt items nf_name nf_type nf_items nf_chunk nf_width nf_dt alloc d rows L eq_refl HL nf_rows (S (length rows)) (new_table (np_split (zlen rows) n)) f1 b1 0) as (t2 & f2 & b2 & E2 & I2 & Z2 & R2 & Fr2 & S2).
    { unfold zlen. lia. } { lia. } { exact I1. } { exact Hts. } { rewrite Hts. lia. }
    { intros r Hr. cbn [new_table t_row]. destruct (r <? _) eqn:X; [lia|reflexivity]. } { exact S1. }
    rewrite E2. cbn [bind]. fold isz in I2. fold w in I2. destruct (hist_flush e base dt items w t2 f2 b2 I2) as (f3 & E3 & I3 & S3 & _).
    unfold py_exit. rewrite E3. cbn [bind]. change (negb (0 =? 0)) with false. cbv iota.
    assert (Fr3 : frames base f2 f3) by (pose proof (flush_frames e f2 b2 0 f3 (set_bdirty b2 false) E3) as [X _]; rewrite (hv_base _ _ _ _ _ _ _ _ I2) in X; exact X).
    destruct (open_clean e base dt items w t2 f3 _ nf_name nf_type ltac:(lia) I3 eq_refl) as (b4 & E4 & I4 & S4).
    unfold big_file_open_block. fold base. rewrite E4. cbn [bind].
    destruct (hinv_size _ _ _ _ _ _ _ _ I4) as (Es & Ed & En & HLy).
    assert (Hsz : t_size t2 = zlen rows) by (unfold t_size; rewrite Z2; exact Hsum).
    assert (Hsh : shows_all (isz * items) t2 rows).
    { split; [lia|]. split; [exact nf_rows|]. intros r v Hr. left. rewrite R2 by lia. rewrite Nat2Z.id. exact Hr. }
    destruct (get_all e base dt items nf_name nf_type nf_items nf_chunk nf_width nf_dt alloc Hal t2 f3 b4 rows I4 Hsh) as (a & m & Eg & Ag); [lia|].
    exists f3, b4, a, m. split; [reflexivity|]. split; [lia|]. split; [exact Ed|]. split; [exact En|]. split; [rewrite (hl_Nfile _ _ HLy), Z2; exact Hll|].
    split; [exact Eg|]. split; [exact Ag|]. split.
    + change (np_split (zlen rows) n) with (t_sizes (new_table (np_split (zlen rows) n))). rewrite <- Z2. apply S4. rewrite Z2 in *. apply S3. exact S2.
    + intros q x Hq Hx. rewrite Fr3, Fr2 by exact Hq. apply Fr1; auto.
  - replace (mlim / w / 1024 * 1024) with 0; [|assert (0 <= mlim / w < 1024) by (split; [apply Z.div_pos; lia|apply Z.div_lt_upper_bound; lia]); lia].
    change (0 =? 0) with true. cbv iota. cbn [bind]. destruct (hist_flush e base dt items w _ f1 b1 I1) as (f3 & E3 & I3 & _).
    unfold py_exit. rewrite E3. cbn [bind]. change (negb (0 =? 0)) with false. cbv iota.
    destruct (open_clean e base dt items w _ f3 _ nf_name nf_type ltac:(lia) I3 eq_refl) as (b4 & E4 & I4 & _).
    destruct (hinv_size _ _ _ _ _ _ _ _ I4) as (Es & _ & _ & _). exists f3, b4. split; [reflexivity|]. split; [exact E4|]. split; [lia|].
    intros Hne. apply (get_absent e base dt items nf_name nf_type nf_items nf_chunk nf_width nf_dt alloc Hal _ f3 b4 None None None I4); [rewrite Hts; lia|auto|].
    exists 0. assert (0 < zlen rows) by (destruct rows; [congruence|rewrite zlen_cons; pose proof (zlen_nonneg rows); lia]). split; [cbn [bound]; lia|]. split; [reflexivity|]. intros; reflexivity.
Qed.

(* ------------------------------------------------------------------ append *)
Lemma append_rows e base dt nmemb t f b a m N : let w := itemsize (e_me e) dt * nmemb in
  block_name base -> header_type dt -> 0 < nmemb < 2 ^ 31 -> w <= e_chunk e -> w < 2 ^ 31 -> hinv e base dt nmemb w t f b ->
  let k := nrows nmemb a in hd 0 (a_dims a) = k -> 0 < k -> 0 < N -> k * N < 2 ^ 63 -> t_size t + k < 2 ^ 63 -> zlen (t_sizes t) + N <= 2 ^ 24 ->
  hop_ok (e_me e) dt nmemb (t_sizes t) (HWrite 0 a m) ->
  exists f' b' vs outs, py_append e f b a m N = Ret (PyRet tt, (f', b')) /\ source (e_me e) dt nmemb a m vs outs /\
    hinv e base dt nmemb w (with_rows (mkTab (t_sizes t ++ np_split k N) (t_row t) (t_sum t)) (t_size t) (rows_of nmemb k outs)) f' b'.
Proof.
  intros w Hbn Hty Hnm Hwc Hw31 I k Hd Hk HN HkN Hsz HNN Hok.
  destruct (hinv_size _ _ _ _ _ _ _ _ I) as (Es & _ & _ & HL). pose proof (zsum_nonneg _ (hl_nonneg _ _ HL)) as Hz.
  destruct (np_layout k N ltac:(lia) ltac:(lia) ltac:(lia) HkN ltac:(unfold t_size in *; lia) ltac:(pose proof (zlen_nonneg (t_sizes t)); lia)) as (Hlay & Hll & Hsum).
  assert (Hg : hop_ok (e_me e) dt nmemb (t_sizes t) (HGrow (np_split k N))).
  { split; [|rewrite zlen_app, Hll; lia]. split; [|split].
    - apply Forall_app. split; [apply (hl_nonneg _ _ HL)|apply Hlay].
    - rewrite zsum_app, Hsum. unfold t_size in Hsz. lia.
    - rewrite zlen_app, Hll. lia. }
  destruct (hist_step e base dt nmemb w Hbn Hty ltac:(lia) Hwc Hw31 t f b _ I Hg) as (x1 & f1 & b1 & t1 & E1 & S1 & I1 & _).
  inversion S1; subst. set (t1 := mkTab (t_sizes t ++ np_split k N) (t_row t) (t_sum t)) in *.
  destruct (hist_flush e base dt nmemb w t1 f1 b1 I1) as (f2 & E2 & I2 & _).
  assert (Hok2 : hop_ok (e_me e) dt nmemb (t_sizes t1) (HWrite (t_size t) a m)) by (destruct Hok as (_ & X); split; [unfold t_size in *; lia|exact X]).
  destruct (hist_step e base dt nmemb w Hbn Hty ltac:(lia) Hwc Hw31 t1 f2 _ _ I2 Hok2) as (x3 & f3 & b3 & t3 & E3 & S3 & I3 & _).
  assert (Hts : t_size t1 = t_size t + k) by (unfold t_size, t1; cbn [t_sizes]; rewrite zsum_app, Hsum; reflexivity).
  inversion S3 as [o0 a0 um0 um' vs outs H1 H2 H3|o0 a0 um0 H1| | | |]; subst; [|fold k in H1; lia]. fold k in I3.
  exists f3, b3, vs, outs. split; [|split; [exact H2|exact I3]].
  unfold py_append. replace (match a_dims a with n :: _ => n | [] => 0 end) with k by (destruct (a_dims a); exact (eq_sym Hd)).
  replace (N <? 0) with false by lia. replace ((N =? 0) && negb (k =? 0)) with false by lia.
  cbn [hstep] in E1. rewrite Hll in E1. destruct (big_block_grow f b N (np_split k N)) as [[[rc f4] b4]|u|]; cbn [bind] in *; try discriminate E1. injection E1 as -> -> ->.
  change (negb (0 =? 0)) with false. cbv iota. rewrite E2. cbn [bind]. change (negb (0 =? 0)) with false. cbv iota. rewrite Es.
  unfold py_write. cbn [hstep] in E3. destruct (big_block_seek (set_bdirty b1 false) _ (t_size t)) as [[rc q]|u|]; cbn [bind] in *; try discriminate E3.
  destruct (negb (rc =? 0)) eqn:Er; [assert (rc = 0) by congruence; lia|].
  destruct (big_block_write e f2 (set_bdirty b1 false) q a m) as [[[[[rc2 f5] b5] p5] m5]|u|]; cbn [bind] in *; try discriminate E3.
  assert (rc2 = 0) by congruence. assert (f5 = f3) by congruence. assert (b5 = b3) by congruence. subst. reflexivity.
Qed.
