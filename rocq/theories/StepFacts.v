(* Reading and writing with each access to a file a separate step. *)
From Coq.Strings Require Import Byte String.
From Coq Require Import List ZArith Lia Bool ZifyBool ZifyNat.
From Verif Require Import Base BaseFacts Dtype Cast Array FS Fmt Attr Block Spec SeekFacts FSFacts ArrayFacts ConvFacts WriteFacts ReadFacts
  OpenFacts Par MpiSpec ParFacts SyncFacts VecFacts CollFacts Mpi.
Import ListNotations.
Open Scope Z_scope.
Ltac Zify.zify_post_hook ::= Z.div_mod_to_equations.

(* ----------------------------------------------------- single writes *)
(* A write of c whole rows at row r, all in file k. *)
Definition row_write (base : bytes) (sizes : list Z) (w lo hi : Z) (o : act) : Prop :=
  exists r k q c l, home sizes r = Some (k, q) /\ 0 <= c /\ q + c <= nth k sizes 0 /\ lo <= r /\ r + c <= hi /\
    zlen l = c * w /\ o = op_write (data_path base (Z.of_nat k)) (Z.to_nat (q * w)) l.
Lemma row_write_sub base sizes w lo hi lo' hi' o : lo' <= lo -> hi <= hi' -> row_write base sizes w lo hi o -> row_write base sizes w lo' hi' o.
Proof. intros A B (r & k & q & c & l & H1 & H2 & H3 & H4 & H5 & H). exists r, k, q, c, l. repeat split; auto; try lia; apply H. Qed.

Lemma op_write_ret p pos l f : exists r f', op_write p pos l f = Ret (r, f').
Proof. unfold op_write. destruct (fopen_rp f p); eauto. Qed.
Lemma pwrite_comm c p1 l1 p2 l2 : (p1 + length l1 <= p2 \/ p2 + length l2 <= p1)%nat -> pwrite (pwrite c p1 l1) p2 l2 = pwrite (pwrite c p2 l2) p1 l1.
Proof.
  intros H. destruct l1 as [|x1 l1]; [reflexivity|]. destruct l2 as [|x2 l2]; [reflexivity|].
  apply (nth_ext _ _ x00 x00); [rewrite !pwrite_length by discriminate; lia|]. intros i _. rewrite !nth_pwrite.
  repeat match goal with |- context [if ?b then _ else _] => destruct b eqn:? end; try reflexivity; try lia.
Qed.

Lemma path_eq_dec (p q : path) : {p = q} + {p <> q}.
Proof. destruct (path_eqb p q) eqn:E; [left; apply path_eqb_eq; auto|right; apply path_eqb_neq; auto]. Qed.
Lemma get_proper f p c : fs_get f p = Some (File c) -> proper p.
Proof. intros H. split; intros ->; discriminate. Qed.

Lemma op_write_respects p pos l : respects fs_eq (op_write p pos l).
Proof.
  intros f g r f' E H. unfold op_write, fopen_rp in *. rewrite <- (E p). destruct (fs_get f p) as [[|c]|]; injection H as <- <-; eexists; split; try reflexivity; auto.
  apply fs_eq_set. exact E.
Qed.
Lemma op_write_disjoint p1 pos1 l1 p2 pos2 l2 : (p1 = p2 -> (pos1 + length l1 <= pos2 \/ pos2 + length l2 <= pos1)%nat) ->
  commute fs_eq (op_write p1 pos1 l1) (op_write p2 pos2 l2).
Proof.
  intros HD. split; [|intros f r2 f2 x _ _; destruct (op_write_ret p1 pos1 l1 f) as (r & f' & E); eauto].
  intros f r1 f1 r2 f2 H1 H2. unfold op_write, fopen_rp in *.
  destruct (path_eq_dec p1 p2) as [E|E].
  - specialize (HD E). subst p2. destruct (fs_get f p1) as [[|c]|] eqn:Eg; injection H1 as <- <-; injection H2 as <- <-.
    + rewrite Eg. eexists _, _. split; [reflexivity|]. split; [reflexivity|]. apply fs_eq_refl.
    + pose proof (get_proper _ _ _ Eg) as HP. rewrite !fs_get_set_same by auto. eexists _, _. split; [reflexivity|]. split; [reflexivity|]. intros q.
      destruct (path_eq_dec q p1) as [->|Hq]; [rewrite !fs_get_set_same by auto; do 2 f_equal; symmetry; apply pwrite_comm; auto|]. rewrite !fs_get_set_other by auto. reflexivity.
    + rewrite Eg. eexists _, _. split; [reflexivity|]. split; [reflexivity|]. apply fs_eq_refl.
  - assert (X1 : fs_get f1 p2 = fs_get f p2) by (destruct (fs_get f p1) as [[|c]|]; injection H1 as <- <-; auto; apply fs_get_set_other; auto).
    assert (X2 : fs_get f2 p1 = fs_get f p1) by (destruct (fs_get f p2) as [[|c]|]; injection H2 as <- <-; auto; apply fs_get_set_other; auto).
    rewrite X1, X2. destruct (fs_get f p1) as [[|c1]|] eqn:G1; destruct (fs_get f p2) as [[|c2]|] eqn:G2; injection H1 as <- <-; injection H2 as <- <-;
      (eexists _, _; split; [reflexivity|]; split; [reflexivity|]; try apply fs_eq_refl).
    pose proof (get_proper _ _ _ G1) as HP1. pose proof (get_proper _ _ _ G2) as HP2. intros q. destruct (path_eq_dec q p1) as [->|Hq1]; [rewrite fs_get_set_same, fs_get_set_other, fs_get_set_same by auto; reflexivity|].
    destruct (path_eq_dec q p2) as [->|Hq2]; [rewrite fs_get_set_other, !fs_get_set_same by auto; reflexivity|]. rewrite !fs_get_set_other by auto. reflexivity.
Qed.
Lemma row_writes_commute base sizes w lo1 hi1 lo2 hi2 o1 o2 : Forall (fun s => 0 <= s) sizes -> zlen sizes < 2 ^ 31 -> 0 < w ->
  row_write base sizes w lo1 hi1 o1 -> row_write base sizes w lo2 hi2 o2 -> hi1 <= lo2 \/ hi2 <= lo1 -> commute fs_eq o1 o2.
Proof.
  intros Hs Hn Hw (r1 & k1 & q1 & c1 & l1 & A1 & A2 & A3 & A4 & A5 & A6 & ->) (r2 & k2 & q2 & c2 & l2 & B1 & B2 & B3 & B4 & B5 & B6 & ->) HD.
  apply home_spec in A1; auto. apply home_spec in B1; auto. destruct A1 as (A1 & Aq & A7). destruct B1 as (B1 & Bq & B7).
  apply op_write_disjoint. intros E. apply data_path_inj in E; try (unfold zlen in Hn; lia). assert (k1 = k2) by lia. subst k2. unfold zlen in *.
  destruct HD as [HD|HD]; [left|right]; nia.
Qed.

(* ------------------------------------------ files that can be opened *)
Lemma same_files_refl f : same_files f f. Proof. intros p. tauto. Qed.
Lemma same_files_sym f g : same_files f g -> same_files g f. Proof. intros H p. specialize (H p). tauto. Qed.
Lemma same_files_trans f g h : same_files f g -> same_files g h -> same_files f h.
Proof. intros H1 H2 p. specialize (H1 p). specialize (H2 p). tauto. Qed.
Lemma same_files_set f p c c' : fopen_rp f p = Some c -> same_files f (fs_set f p (File c')).
Proof.
  intros H q. unfold fopen_rp in *. destruct (path_eq_dec q p) as [->|Hq].
  { destruct (fs_get f p) as [[|c0]|] eqn:G; try discriminate. rewrite fs_get_set_same by (eapply get_proper; eauto). split; discriminate. }
  rewrite fs_get_set_other by auto. tauto.
Qed.
Lemma op_write_same p pos l f r f' : op_write p pos l f = Ret (r, f') -> same_files f f' /\ r = (match fopen_rp f p with None => VNone | _ => VZs [] end).
Proof.
  unfold op_write. destruct (fopen_rp f p) as [c|] eqn:E; intros H; injection H as <- <-; split; try reflexivity; [eapply same_files_set; eauto|apply same_files_refl].
Qed.
Lemma same_files_op p pos l f g r f' : same_files f g -> op_write p pos l f = Ret (r, f') -> exists g', op_write p pos l g = Ret (r, g') /\ same_files f' g'.
Proof.
  intros S H. destruct (op_write_ret p pos l g) as (r2 & g' & H2). destruct (op_write_same _ _ _ _ _ _ H) as [A1 A2]. destruct (op_write_same _ _ _ _ _ _ H2) as [B1 B2].
  exists g'. split.
  - rewrite H2. do 2 f_equal. subst r r2. specialize (S p). destruct (fopen_rp f p), (fopen_rp g p); auto; destruct S as [S1 S2]; [discriminate (S2 eq_refl)|discriminate (S1 eq_refl)].
  - eapply same_files_trans; [apply same_files_sym; exact A1|]. eapply same_files_trans; [exact S|exact B1].
Qed.
Definition some_write (o : act) : Prop := exists p pos l, o = op_write p pos l.
Lemma row_write_some base sizes w lo hi o : row_write base sizes w lo hi o -> some_write o.
Proof. intros (r & k & q & c & l & _ & _ & _ & _ & _ & _ & ->). unfold some_write. eauto. Qed.
Lemma writes_good l : (forall i o, In (i, o) l -> some_write o) -> good same_files l.
Proof.
  intros H. split.
  - intros i o Hi f g r f' E X. destruct (H i o Hi) as (p & pos & d & ->). eapply same_files_op; eauto.
  - intros i o1 j o2 Hi Hj _. destruct (H i o1 Hi) as (p1 & pos1 & l1 & ->). destruct (H j o2 Hj) as (p2 & pos2 & l2 & ->). split.
    + intros f r1 f1 r2 f2 H1 H2. destruct (op_write_same _ _ _ _ _ _ H1) as [A _]. destruct (op_write_same _ _ _ _ _ _ H2) as [B _].
      destruct (same_files_op _ _ _ _ _ _ _ A H2) as (g2 & X2 & Y2). destruct (same_files_op _ _ _ _ _ _ _ B H1) as (g1 & X1 & Y1). exists g1, g2. split; [exact X2|]. split; [exact X1|].
      eapply same_files_trans; [apply same_files_sym; exact Y1|]. eapply same_files_trans; [apply same_files_sym; exact A|]. eapply same_files_trans; [exact B|]. exact Y2.
    + intros f r2 f2 x _ _. destruct (op_write_ret p1 pos1 l1 f) as (r & f' & E). eauto.
Qed.

(* One chunk of the write loop, whatever the files. *)
Lemma write_step e sizes w a cs base : array_ok a -> dt_ok (e_me e) (a_dtype a) -> 0 < cs ->
  forall fuel n f b p cb um ai o k vs outs,
  wblock e b sizes w -> b_base b = base ->
  convertible (e_me e) (a_dtype a) (b_dtype b) ->
  buf_mapped cb (cs * w) ->
  iter_at (e_me e) ai a k -> 0 <= k -> k + zlen vs <= a_size a ->
  holds um (elem_addr a) (itemsize (e_me e) (a_dtype a)) k vs ->
  (dt_native (e_me e) (a_dtype a) = false ->
     elems_disjoint (elem_addr a) (itemsize (e_me e) (a_dtype a)) k (zlen vs)) ->
  0 < n -> zlen vs = n * b_nmemb b ->
  Forall2 (converts (e_me e) (a_dtype a) (b_dtype b)) vs outs ->
  ptr_at sizes p o -> o + n <= zsum sizes ->
  exists c l cks p1 cb1 um1 ai1 vs2 outs2 k2,
    write_loop e f b p cb (chunk_array (e_me e) b cs) um ai cs n (S fuel) =
      (match fopen_rp f (data_path base (p_fileid p)) with
       | None => Ret (-1, f, set_checksums b cks, p, um1)
       | Some cont => write_loop e (fs_set f (data_path base (p_fileid p)) (File (pwrite cont (Z.to_nat (p_roffset p * w)) l)))
                        (set_checksums b cks) p1 cb1 (chunk_array (e_me e) b cs) um1 ai1 cs (n - c) fuel
       end) /\ 1 <= c <= n /\ wblock e (set_checksums b cks) sizes w /\ buf_mapped cb1 (cs * w) /\
    iter_at (e_me e) ai1 a k2 /\ 0 <= k2 /\ k2 + zlen vs2 <= a_size a /\
    holds um1 (elem_addr a) (itemsize (e_me e) (a_dtype a)) k2 vs2 /\
    (dt_native (e_me e) (a_dtype a) = false ->
       elems_disjoint (elem_addr a) (itemsize (e_me e) (a_dtype a)) k2 (zlen vs2)) /\
    zlen vs2 = (n - c) * b_nmemb b /\ Forall2 (converts (e_me e) (a_dtype a) (b_dtype b)) vs2 outs2 /\
    ptr_at sizes p1 (o + c) /\ 0 <= p_fileid p < zlen sizes /\ home sizes o = Some (Z.to_nat (p_fileid p), p_roffset p) /\ 0 <= p_roffset p /\ p_roffset p + c <= nth (Z.to_nat (p_fileid p)) sizes 0.
Proof.
  intros Ha Hda Hcs fuel n f b p cb um ai o k vs outs HW Hbase Hconv Hcb Hi0 Hk0 Hk Hh Hd Hpos Hlen Hf Hp Ho.
  pose proof (wb_layout _ _ _ _ HW) as HL. pose proof (wb_felsize _ _ _ _ HW) as Hfel.
  pose proof (wb_nmemb _ _ _ _ HW) as Hnm. pose proof (wb_dt _ _ _ _ HW) as Hdb.
  assert (Hisz : 0 < itemsize (e_me e) (b_dtype b)) by apply Hdb.
  assert (Hisa : 0 < itemsize (e_me e) (a_dtype a)) by apply Hda.
  assert (Hw : 0 < w) by (rewrite (wb_w _ _ _ _ HW); nia).
  pose proof (pa_range _ _ _ Hp) as Hor.
  cbn [write_loop]. replace (0 <? n) with true by lia. cbn [negb].
  rewrite (eof_spec _ _ _ _ HL Hp). cbn [bind].
  replace (o =? zsum sizes) with false by lia.
  destruct (next_chunk_spec b sizes p o cs n HL Hp ltac:(lia) ltac:(lia) Hpos) as (c & -> & Hc). cbn [bind].
  destruct (ptr_in _ _ _ _ HL Hp ltac:(lia)) as (Pf & Pr & Ph).
  set (j := Z.to_nat (p_fileid p)) in *.
  assert (Hc1 : 1 <= c <= cs /\ c <= n /\ p_roffset p + c <= nth j sizes 0) by lia.
  set (m := Z.to_nat (c * b_nmemb b)).
  assert (Hm : Z.of_nat m = c * b_nmemb b) by (unfold m; nia).
  assert (Hvs : vs = firstn m vs ++ skipn m vs) by (symmetry; apply firstn_skipn).
  set (vs1 := firstn m vs) in *. set (vs2 := skipn m vs) in *.
  assert (Hl1 : zlen vs1 = c * b_nmemb b).
  { unfold vs1, zlen. rewrite firstn_length. unfold zlen in Hlen. nia. }
  assert (Hl2 : zlen vs2 = (n - c) * b_nmemb b).
  { rewrite Hvs, zlen_app in Hlen. nia. }
  assert (Hlm : length vs1 = m) by (unfold zlen in Hl1; lia).
  rewrite Hvs in Hf. apply Forall2_app_split in Hf. destruct Hf as (outs1 & outs2 & -> & Hf1 & Hf2).
  rewrite Hvs in Hh. apply holds_app in Hh. destruct Hh as [Hh1 Hh2].
  assert (Hlsum : zlen vs = zlen vs1 + zlen vs2) by (rewrite Hvs at 1; apply zlen_app).
  pose proof (zlen_nonneg vs2) as Hnn2.
  pose proof (zlen_nonneg vs1) as Hnn1.
  set (ca := chunk_array (e_me e) b cs).
  assert (Hca : array_ok ca) by (apply chunk_array_ok; lia).
  destruct (convert_spec (e_me e) cb (iter_init (e_me e) ca) ca um ai a 0 k vs1 outs1)
    as (cb1 & di' & um1 & ai1 & E1 & _ & Hai1 & Hwr & Hsrc); auto.
  { apply iter_init_at; auto. }
  { lia. }
  { change (a_size ca) with (cs * b_nmemb b). nia. }
  { lia. }
  { apply chunk_mapped; auto; try lia. nia. rewrite <- (wb_w _ _ _ _ HW). auto. }
  { apply chunk_disjoint; auto. nia. }
  { intros Hna. specialize (Hd Hna). intros x y Hx Hy. apply Hd; lia. }
  change (a_dtype ca) with (b_dtype b) in *.
  rewrite Hlm in E1. rewrite E1. cbn [bind]. change (negb (0 =? 0)) with false. cbv iota.
  rewrite Hfel.
  pose proof (Forall2_length Hf1) as Hlo1.
  assert (Hlz1 : zlen outs1 = c * b_nmemb b) by (unfold zlen in *; lia).
  assert (Hload : load cb1 0 (Z.to_nat (c * w)) = Some (concat outs1)).
  { pose proof (concat_load cb1 (elem_addr ca) (itemsize (e_me e) (b_dtype b)) 0 outs1 0 ltac:(lia)) as HX.
    replace (zlen outs1 * itemsize (e_me e) (b_dtype b)) with (c * w) in HX
      by (rewrite Hlz1, (wb_w _ _ _ _ HW); ring).
    apply HX.
    - intros q Hq. unfold ca. rewrite chunk_addr by nia. lia.
    - exact (proj1 Hwr). }
  rewrite Hload. cbn [or_ub bind].
  assert (Hcl := hl_cks _ _ HL). assert (Hcr := hl_cksr _ _ HL).
  assert (Hil : (j < length sizes)%nat) by (unfold j, zlen in *; lia).
  rewrite (znth_nth (b_fchecksum b) (p_fileid p) 0) by (unfold zlen in *; lia). cbn [or_ub bind].
  rewrite zupd_some by (unfold zlen in *; lia). cbn [or_ub bind]. fold j.
  assert (Hcki : 0 <= nth j (b_fchecksum b) 0 < 2 ^ 32).
  { rewrite Forall_forall in Hcr. apply Hcr. apply nth_In. lia. }
  rewrite sysvsum_spec by auto.
  set (cks := upd (b_fchecksum b) j ((nth j (b_fchecksum b) 0 + byte_sum (concat outs1)) mod 2 ^ 32)).
  assert (HW1 : wblock e (set_checksums b cks) sizes w).
  { constructor; try apply HW. apply layout_set_cks; auto; [unfold cks; rewrite upd_length; auto|]. apply upd_Forall; auto. apply Z.mod_pos_bound. lia. }
  rewrite Hbase. replace (p_roffset p * w <? 0) with false by nia.
  destruct (seek_rel_fwd (set_checksums b cks) sizes p o c (wb_layout _ _ _ _ HW1) Hp ltac:(lia)) as (p1 & -> & Hp1). cbn [bind].
  change (negb (0 =? 0)) with false. cbv iota.
  exists c, (concat outs1), cks, p1, cb1, um1, ai1, vs2, outs2, (k + zlen vs1).
  split; [reflexivity|]. split; [lia|]. split; [exact HW1|]. split; [|split; [exact Hai1|split; [lia|split; [lia|split; [|split; [|split; [exact Hl2|split; [exact Hf2|split; [exact Hp1|split; [lia|split; [exact Ph|lia]]]]]]]]]]].
  - intros x Hx Hc0.
    rewrite (wrote_domain cb cb1 (elem_addr ca) (itemsize (e_me e) (b_dtype b)) 0 outs1) in Hc0; auto; try lia.
    + apply (Hcb x); auto.
    + apply chunk_mapped; auto; try nia. rewrite <- (wb_w _ _ _ _ HW). auto.
  - eapply src_after_holds; eauto; try lia. rewrite <- Hlsum. auto.
  - intros Hna. specialize (Hd Hna). intros x y Hx Hy. apply Hd; lia.
Qed.

Lemma rows_same f g base sizes lo hi : same_files f g -> rows_exist f base sizes lo hi -> rows_exist g base sizes lo hi.
Proof.
  intros S F r q x Hr Hh. specialize (F r q x Hr Hh). specialize (S (data_path base (Z.of_nat q))). unfold data_file, fopen_rp in *.
  destruct (fs_get g (data_path base (Z.of_nat q))) as [[|c]|]; try discriminate; destruct S as [_ S]; specialize (S eq_refl); destruct (fs_get f (data_path base (Z.of_nat q))) as [[|c1]|]; auto; discriminate.
Qed.

Lemma write_loop_any e sizes w a cs base : array_ok a -> dt_ok (e_me e) (a_dtype a) -> 0 < cs ->
  forall fuel n f b p cb um ai o k vs outs,
  wblock e b sizes w -> b_base b = base ->
  convertible (e_me e) (a_dtype a) (b_dtype b) ->
  buf_mapped cb (cs * w) ->
  iter_at (e_me e) ai a k -> 0 <= k -> k + zlen vs <= a_size a ->
  holds um (elem_addr a) (itemsize (e_me e) (a_dtype a)) k vs ->
  (dt_native (e_me e) (a_dtype a) = false ->
     elems_disjoint (elem_addr a) (itemsize (e_me e) (a_dtype a)) k (zlen vs)) ->
  0 <= n -> zlen vs = n * b_nmemb b ->
  Forall2 (converts (e_me e) (a_dtype a) (b_dtype b)) vs outs ->
  ptr_at sizes p o -> o + n <= zsum sizes -> n < Z.of_nat fuel ->
  exists rc f' cks p' um',
    write_loop e f b p cb (chunk_array (e_me e) b cs) um ai cs n fuel = Ret (rc, f', set_checksums b cks, p', um') /\
    same_files f f' /\ wblock e (set_checksums b cks) sizes w /\
    (rc = 0 /\ rows_exist f base sizes o (o + n) \/ rc = -1 /\ ~ rows_exist f base sizes o (o + n)).
Proof.
  intros Ha Hda Hcs. induction fuel as [|fuel IH];
    intros n f b p cb um ai o k vs outs HW Hbase Hconv Hcb Hi0 Hk0 Hk Hh Hd Hn Hlen Hf Hp Ho Hfuel; [lia|].
  destruct (Z.eq_dec n 0) as [->|Hn0].
  { exists 0, f, (b_fchecksum b), p, um. assert (E : set_checksums b (b_fchecksum b) = b) by (destruct b; reflexivity). rewrite E. split; [reflexivity|]. split; [apply same_files_refl|]. split; [exact HW|]. left. split; [reflexivity|]. intros r j q Hr. lia. }
  destruct (write_step e sizes w a cs base Ha Hda Hcs fuel n f b p cb um ai o k vs outs) as
    (c & l & cks & p1 & cb1 & um1 & ai1 & vs2 & outs2 & k2 & E & Hc & HW1 & Hcb1 & Hi1 & Hk2 & Hk2' & Hh2 & Hd2 & Hl2 & Hf2 & Hp1 & Hfi & Hh1 & Hr0 & Hrc); auto; try lia.
  rewrite E. destruct (fopen_rp f (data_path base (p_fileid p))) as [cont|] eqn:Ef.
  - set (f1 := fs_set f _ _). assert (SF : same_files f f1) by (eapply same_files_set; exact Ef).
    destruct (IH (n - c) f1 (set_checksums b cks) p1 cb1 um1 ai1 (o + c) k2 vs2 outs2) as (rc & f' & cks' & p' & um' & E2 & S2 & W2 & R2); auto; try lia.
    change (chunk_array (e_me e) (set_checksums b cks) cs) with (chunk_array (e_me e) b cs) in E2. change (set_checksums (set_checksums b cks) cks') with (set_checksums b cks') in *.
    exists rc, f', cks', p', um'. split; [exact E2|]. split; [eapply same_files_trans; eauto|]. split; [exact W2|]. destruct R2 as [[R2 X]|[R2 X]]; [left|right]; (split; [exact R2|]).
    + intros r j q Hr Hh'. destruct (Z_lt_le_dec r (o + c)) as [L|L].
      * assert (home sizes (o + (r - o)) = Some (Z.to_nat (p_fileid p), p_roffset p + (r - o))) as Hj by (apply home_next; [apply HW|exact Hh1|lia]).
        replace (o + (r - o)) with r in Hj by lia. rewrite Hh' in Hj. injection Hj as -> ->. unfold data_file, fopen_rp in *. rewrite Z2Nat.id by lia. destruct (fs_get f (data_path base (p_fileid p))) as [[|c0]|]; discriminate.
      * apply (rows_same f1 f base sizes (o + c) (o + c + (n - c)) (same_files_sym _ _ SF) X r j q); [lia|exact Hh'].
    + intros Y. apply X. apply (rows_same f f1 base sizes _ _ SF). intros r j q Hr. apply (Y r j q). lia.
  - exists (-1), f, cks, p, um1. split; [reflexivity|]. split; [apply same_files_refl|]. split; [exact HW1|]. right. split; [reflexivity|].
    intros X. apply (X o _ _ ltac:(lia) Hh1). unfold data_file, fopen_rp in *. rewrite Z2Nat.id by lia. destruct (fs_get f (data_path base (p_fileid p))) as [[|c0]|]; auto; discriminate.
Qed.

(* ---------------------------------------------------- the write loop *)
Section Rank.
Variable N i : nat.
Hypothesis Hi : (i < N)%nat.
Notation does1 := (does N (Nat.eqb i)).

Lemma does_loc {B C} (x : out B) (b : B) (q : B -> M C) f Q : x = Ret b -> does1 (fun _ => q b) f Q -> does1 (fun _ => mbind (local x) q) f Q.
Proof. intros -> H. exact H. Qed.
Lemma does_op {C} o r f1 (q : val -> M C) f Q : o f = Ret (r, f1) -> does1 (fun _ => q r) f1 (fun l => Q ((i, o) :: l)) -> does1 (fun _ => mbind (mio o) q) f Q.
Proof.
  intros H HD. apply does_bind with (fun l res f' => l = [(i, o)] /\ res = (fun _ => r) /\ f' = f1).
  - eapply does_io; eauto.
  - intros l res f' (-> & -> & ->). exact HD.
Qed.

Lemma bind_inv {A B} (x : out A) (h : A -> out B) r : bind x h = Ret r -> exists a, x = Ret a /\ h a = Ret r.
Proof. destruct x; cbn; intros H; [eauto|discriminate..]. Qed.

Lemma wloop_does e sizes w base ca cs : 0 < cs -> forall fuel n f b p cb um ai o rc f' b' p' um',
  wblock e b sizes w -> b_base b = base -> ptr_at sizes p o -> o + n <= zsum sizes ->
  write_loop e f b p cb ca um ai cs n fuel = Ret (rc, f', b', p', um') ->
  does1 (fun _ => wloop e b p cb ca um ai cs n fuel) f (fun l res f2 =>
    f2 = f' /\ res = (fun _ => (rc, b', p', um')) /\ forall j a, In (j, a) l -> j = i /\ row_write base sizes w o (o + n) a).
Proof.
  intros Hcs. induction fuel as [|fuel IH]; intros n f b p cb um ai o rc f' b' p' um' HW Hb Hp Ho H; [discriminate|].
  pose proof (wb_layout _ _ _ _ HW) as HL. pose proof (wb_felsize _ _ _ _ HW) as Hfel. pose proof (wb_wpos _ _ _ _ HW) as Hw. pose proof (wb_nmemb _ _ _ _ HW) as Hnm.
  pose proof (pa_range _ _ _ Hp) as Hor. cbn [wloop]. cbn [write_loop] in H.
  destruct (Z.ltb_spec 0 n) as [Hpos|Hz]; cbn [negb] in *.
  2:{ injection H as <- <- <- <- <-. apply (does_ret N (Nat.eqb i) (fun _ => (0, b, p, um))). split; [reflexivity|]. split; [reflexivity|]. intros j a []. }
  rewrite (eof_spec _ _ _ _ HL Hp) in *. cbn [bind] in H. eapply does_loc; [reflexivity|].
  replace (o =? zsum sizes) with false in * by lia.
  destruct (next_chunk_spec b sizes p o cs n HL Hp ltac:(lia) ltac:(lia) Hpos) as (c & Ec & Hc). rewrite Ec in *. cbn [bind] in H. eapply does_loc; [reflexivity|].
  destruct (ptr_in _ _ _ _ HL Hp ltac:(lia)) as (Pf & Pr & Ph).
  assert (Hc1 : 1 <= c <= cs /\ c <= n /\ p_roffset p + c <= nth (Z.to_nat (p_fileid p)) sizes 0) by lia.
  apply bind_inv in H. destruct H as ([[[[rc1 cb1] di] um1] ai1] & E1 & H). rewrite E1. eapply does_loc; [reflexivity|]. cbv iota beta.
  destruct (negb (rc1 =? 0)).
  { injection H as <- <- <- <- <-. apply (does_ret N (Nat.eqb i) (fun _ => (-1, b, p, um1))). split; [reflexivity|]. split; [reflexivity|]. intros j a []. }
  apply bind_inv in H. destruct H as (l & E2 & H). rewrite E2. eapply does_loc; [reflexivity|].
  apply bind_inv in H. destruct H as (old & E3 & H). rewrite E3. eapply does_loc; [reflexivity|].
  apply bind_inv in H. destruct H as (cks & E4 & H). rewrite E4. eapply does_loc; [reflexivity|].
  cbv zeta in *. rewrite Hfel in *. replace (p_roffset p * w <? 0) with false in * by nia.
  rewrite Hb in *.
  assert (Hll : zlen l = c * w).
  { destruct (load cb1 0 (Z.to_nat (c * w))) as [l'|] eqn:El; [|discriminate]. injection E2 as ->. apply load_length in El. unfold zlen. nia. }
  assert (RW : row_write base sizes w o (o + n) (op_write (data_path base (p_fileid p)) (Z.to_nat (p_roffset p * w)) l)).
  { exists o, (Z.to_nat (p_fileid p)), (p_roffset p), c, l. rewrite Z2Nat.id by lia. split; [exact Ph|]. repeat split; auto; lia. }
  set (op := op_write (data_path base (p_fileid p)) (Z.to_nat (p_roffset p * w)) l) in *.
  destruct (fopen_rp f (data_path base (p_fileid p))) as [cont|] eqn:Ef.
  2:{ injection H as <- <- <- <- <-. eapply does_op with (r := VNone) (f1 := f); [unfold op, op_write; rewrite Ef; reflexivity|].
      apply (does_ret N (Nat.eqb i) (fun _ => (-1, set_checksums b cks, p, um1))). split; [reflexivity|]. split; [reflexivity|]. intros j a [X|[]]. injection X as <- <-. auto. }
  eapply does_op with (r := VZs []); [unfold op, op_write; rewrite Ef; reflexivity|]. cbv iota beta.
  apply bind_inv in H. destruct H as ([rc2 p1] & E5 & H). rewrite E5. eapply does_loc; [reflexivity|]. cbv iota beta.
  assert (Hi2 : (Z.to_nat (p_fileid p) < length sizes)%nat) by (unfold zlen in *; lia).
  assert (Hold : 0 <= old < 2 ^ 32).
  { destruct (znth (b_fchecksum b) (p_fileid p)) as [x|] eqn:Ex; [|discriminate]. injection E3 as ->. pose proof (hl_cksr _ _ HL) as Hr. rewrite Forall_forall in Hr. apply Hr.
    unfold znth in Ex. destruct (p_fileid p <? 0); [discriminate|]. eapply nth_error_In; eauto. }
  assert (HW1 : wblock e (set_checksums b cks) sizes w).
  { constructor; try apply HW. destruct (zupd (b_fchecksum b) (p_fileid p) (sysvsum old l)) as [x|] eqn:Ex; [|discriminate]. injection E4 as ->.
    rewrite zupd_some in Ex by (pose proof (hl_cks _ _ HL); unfold zlen in *; lia). injection Ex as <-.
    apply layout_set_cks; auto; [rewrite upd_length; apply HL|]. apply upd_Forall; [apply HL|]. rewrite sysvsum_spec by auto. apply Z.mod_pos_bound. lia. }
  destruct (seek_rel_fwd (set_checksums b cks) sizes p o c (wb_layout _ _ _ _ HW1) Hp ltac:(lia)) as (p2 & E6 & Hp2). rewrite E5 in E6. injection E6 as -> ->.
  change (negb (0 =? 0)) with false in *. cbv iota in *.
  eapply does_mono; [|eapply IH with (o := o + c); [exact HW1|exact Hb|exact Hp2|lia|exact H]]. cbn beta.
  intros l2 res f2 (-> & -> & HA). split; [reflexivity|]. split; [reflexivity|]. intros j a [X|X]; [injection X as <- <-; auto|].
  destruct (HA j a X) as [-> RW2]. split; [reflexivity|]. eapply row_write_sub; [| |exact RW2]; lia.
Qed.

(* ------------------------------------- writing a buffer of whole rows *)
Lemma does_post {B} (p : nat -> M B) f (Q : list (nat * act) -> (nat -> B) -> fs -> Prop) P : P -> (P -> does1 p f Q) -> does1 p f Q.
Proof. auto. Qed.

Lemma converts_self me d v : converts me d d v v.
Proof. unfold converts, conv_elem. rewrite bytes_eqb_refl. unfold reorder. destruct (dt_native me d); [reflexivity|]. rewrite rev_involutive. reflexivity. Qed.
Lemma converts_selfs me d es : Forall2 (converts me d d) es es.
Proof. induction es; constructor; auto using converts_self. Qed.
Lemma holds_concat me b n m es : 0 < n -> 0 < b_nmemb b -> 0 < itemsize me (b_dtype b) -> zlen es = n * b_nmemb b ->
  Forall (fun v => length v = Z.to_nat (itemsize me (b_dtype b))) es ->
  load m 0 (Z.to_nat (n * (itemsize me (b_dtype b) * b_nmemb b))) = Some (concat es) ->
  holds m (elem_addr (chunk_array me b n)) (itemsize me (b_dtype b)) 0 es.
Proof.
  intros Hn Hm Hz Hl Hw Hld. set (isz := itemsize me (b_dtype b)) in *.
  assert (G : forall k es0, Forall (fun v => length v = Z.to_nat isz) es0 -> 0 <= k -> load m (k * isz) (length (concat es0)) = Some (concat es0) ->
     forall j v, nth_error es0 j = Some v -> load m ((k + Z.of_nat j) * isz) (Z.to_nat isz) = Some v).
  { clear - Hz. intros k es0 F. revert k. induction F as [|v0 es0 Hv F IH]; intros k Hk H j v Hj; [destruct j; discriminate|].
    cbn [concat] in H. rewrite app_length in H. apply load_split in H. destruct H as (H1 & H2).
    rewrite firstn_app, firstn_all, Nat.sub_diag, firstn_O, app_nil_r in H1. rewrite skipn_app, skipn_all, Nat.sub_diag in H2. cbn [skipn app] in H2.
    destruct j as [|j].
    - injection Hj as <-. rewrite Z.add_0_r. rewrite <- Hv. exact H1.
    - cbn in Hj. specialize (IH (k + 1) ltac:(lia)). replace (k * isz + Z.of_nat (length v0)) with ((k + 1) * isz) in H2 by lia. specialize (IH H2 j v Hj).
      replace ((k + Z.of_nat (S j)) * isz) with ((k + 1 + Z.of_nat j) * isz) by lia. exact IH. }
  intros j v Hj. assert (Hjl : Z.of_nat j < zlen es) by (unfold zlen; assert (j < length es)%nat by (apply nth_error_Some; congruence); lia).
  rewrite chunk_addr by lia. apply (G 0 es Hw ltac:(lia)); auto.
  rewrite (concat_length_w es _ Hw). rewrite <- Hld. f_equal. unfold zlen in *. nia.
Qed.

Lemma like_refl b : like b b. Proof. exists (b_fchecksum b), (b_dirty b). split; [destruct b; reflexivity|]. intros [H|H]; [exact H|contradiction H; reflexivity]. Qed.

Lemma root_write e b sizes w p o n es gb f : wblock e b sizes w -> w <= e_chunk e -> w < 2 ^ 31 -> 0 <= n -> zlen es = n * b_nmemb b ->
  Forall (fun v => length v = Z.to_nat (itemsize (e_me e) (b_dtype b))) es -> load gb 0 (Z.to_nat (n * w)) = Some (concat es) ->
  ptr_at sizes p o -> o + n < 2 ^ 63 ->
  does1 (fun _ => block_write e b p (chunk_array (e_me e) b n) gb) f (fun l res f' => exists rc b' p' um', res = (fun _ => (rc, b', p', um')) /\
    same_files f f' /\ (forall j a, In (j, a) l -> j = i /\ row_write (b_base b) sizes w o (o + n) a) /\ wblock e b' sizes w /\ like b b' /\
    (n = 0 -> rc = 0 /\ f' = f /\ b' = b /\ l = []) /\
    (0 < n -> zsum sizes < o + n -> rc = -1 /\ f' = f /\ l = []) /\
    (0 < n -> o + n <= zsum sizes -> rc = 0 /\ rows_exist f (b_base b) sizes o (o + n) \/ rc = -1 /\ ~ rows_exist f (b_base b) sizes o (o + n)) /\
    (0 < n -> o + n <= zsum sizes -> rows_exist f (b_base b) sizes o (o + n) -> rc = 0 /\ fs_eq f' (put_rows f (b_base b) sizes w o (rows_of (b_nmemb b) n es)) /\
       b' = set_checksums (set_bdirty b true) (add_sums (b_fchecksum b) sizes o (rows_of (b_nmemb b) n es)))).
Proof.
  intros HW Hwc Hw31 Hn Hle Hwid Hld Hp Hmax.
  pose proof (wb_wpos _ _ _ _ HW) as Hwp. pose proof (wb_nmemb _ _ _ _ HW) as Hnm. pose proof (wb_dt _ _ _ _ HW) as Hdt. assert (Hisz : 0 < itemsize (e_me e) (b_dtype b)) by apply Hdt.
  pose proof (pa_range _ _ _ Hp) as Hor.
  unfold block_write. change (a_size (chunk_array (e_me e) b n)) with (n * b_nmemb b).
  destruct (Z.eq_dec n 0) as [->|Hn0].
  { replace (0 * b_nmemb b =? 0) with true by lia. apply (does_ret N (Nat.eqb i) (fun _ => (0, b, p, gb))). exists 0, b, p, gb. split; [reflexivity|]. split; [apply same_files_refl|]. split; [intros j a []|].
    split; [exact HW|]. split; [apply like_refl|]. split; [auto|]. split; [lia|]. split; lia. }
  replace (n * b_nmemb b =? 0) with false by nia. cbv zeta.
  pose proof (wb_dirty _ _ _ _ true HW) as HW1. set (b1 := set_bdirty b true) in *.
  rewrite (wb_felsize _ _ _ _ HW1). replace (2 ^ 31 <=? Z.abs w) with false by lia. replace (w =? 0) with false by lia.
  pose proof (wb_layout _ _ _ _ HW1) as HL.
  eapply does_loc; [apply chunk_array_init; apply HW1|]. eapply does_loc; [rewrite (ptr_offset _ _ _ _ HL Hp); reflexivity|].
  rewrite (pa_abs _ _ _ Hp), (row_nmemb_pos b1) by apply Hnm. change (b_nmemb b1) with (b_nmemb b). rewrite Z.div_mul by lia.
  rewrite s64_id by lia. rewrite u64_id by lia. rewrite (hl_size _ _ HL).
  destruct (Z.ltb_spec (zsum sizes) (o + n)) as [Hout|Hin].
  { apply (does_ret N (Nat.eqb i) (fun _ => (-1, b1, p, gb))). exists (-1), b1, p, gb. split; [reflexivity|]. split; [apply same_files_refl|]. split; [intros j a []|].
    split; [exact HW1|]. split; [exists (b_fchecksum b), true; split; [destruct b; reflexivity|reflexivity]|]. split; [lia|]. split; [auto|]. split; lia. }
  rewrite (chunk_rows_spec _ _ _ _ HW1) by auto. set (cs := e_chunk e / w).
  assert (Hcs : 0 < cs) by (apply Z.div_str_pos; lia).
  set (ga := chunk_array (e_me e) b n).
  assert (Hga : array_ok ga) by (apply chunk_array_ok; lia).
  assert (Hh : holds gb (elem_addr ga) (itemsize (e_me e) (b_dtype b)) 0 es) by (apply holds_concat; auto; try lia; rewrite <- (wb_w _ _ _ _ HW); auto).
  assert (Hdis : elems_disjoint (elem_addr ga) (itemsize (e_me e) (b_dtype b)) 0 (zlen es)) by (apply chunk_disjoint; auto; lia).
  assert (Hconv : convertible (e_me e) (b_dtype b) (b_dtype b)) by (left; reflexivity).
  assert (Hbm : buf_mapped (chunk_mem e) (cs * w)) by (apply chunk_mem_mapped; unfold cs; rewrite Z.mul_comm; apply Z.mul_div_le; lia).
  destruct (write_loop_any e sizes w ga cs (b_base b) Hga Hdt Hcs (S (Z.to_nat n)) n f b1 p (chunk_mem e) gb (iter_init (e_me e) ga) o 0 es es)
    as (rc & f' & cks & p' & um' & E & SF & W' & R); auto; try lia.
  { apply iter_init_at; auto. }
  { change (a_size ga) with (n * b_nmemb b). lia. }
  { apply converts_selfs. }
  change (chunk_array (e_me e) b1 cs) with (chunk_array (e_me e) b1 cs) in E.
  eapply does_mono; [|eapply (wloop_does e sizes w (b_base b) _ cs Hcs) with (o := o); [exact HW1|reflexivity|exact Hp|lia|exact E]]. cbn beta.
  intros l res f2 (-> & -> & HA). exists rc, (set_checksums b1 cks), p', um'. split; [reflexivity|]. split; [exact SF|]. split; [exact HA|]. split; [exact W'|].
  split; [exists cks, true; split; reflexivity|]. split; [lia|]. split; [lia|]. split.
  - intros _ _. exact R.
  - intros _ _ HF. destruct (write_loop_spec e sizes w ga cs (b_base b) Hga Hdt Hcs (S (Z.to_nat n)) n f b1 p (chunk_mem e) gb (iter_init (e_me e) ga) o 0 es es)
      as (f2 & p2 & um2 & E2 & F2 & P2 & S2); auto; try lia.
    { apply iter_init_at; auto. }
    { change (a_size ga) with (n * b_nmemb b). lia. }
    { apply converts_selfs. }
    rewrite E in E2. injection E2 as -> -> EC -> ->. split; [reflexivity|]. split; [exact F2|]. rewrite EC. reflexivity.
Qed.

(* ------------------------------------------------------ the read loop *)
Definition some_read (o : act) : Prop := exists p pos n, o = op_read p pos n.
Lemma op_read_ret p pos n f : exists r, op_read p pos n f = Ret (r, f).
Proof. unfold op_read. destruct (fopen_r f p); eauto. Qed.

Lemma rloop_does e sizes w ca cs f : 0 < cs -> forall fuel n b p cb um ai o rc p' um',
  wblock e b sizes w -> ptr_at sizes p o -> o + n <= zsum sizes ->
  read_loop e f b p cb ca um ai cs n fuel = Ret (rc, p', um') ->
  does1 (fun _ => rloop e b p cb ca um ai cs n fuel) f (fun l res f2 =>
    f2 = f /\ res = (fun _ => (rc, p', um')) /\ forall j a, In (j, a) l -> j = i /\ some_read a).
Proof.
  intros Hcs. induction fuel as [|fuel IH]; intros n b p cb um ai o rc p' um' HW Hp Ho H; [discriminate|].
  pose proof (wb_layout _ _ _ _ HW) as HL. pose proof (wb_felsize _ _ _ _ HW) as Hfel. pose proof (wb_wpos _ _ _ _ HW) as Hw. pose proof (wb_nmemb _ _ _ _ HW) as Hnm.
  pose proof (pa_range _ _ _ Hp) as Hor. cbn [rloop]. cbn [read_loop] in H.
  assert (Nil : forall x, x = Ret (rc, p', um') -> forall y : Z * bptr * mem, x = Ret y -> does1 (fun _ => mret y) f (fun l res f2 => f2 = f /\ res = (fun _ => (rc, p', um')) /\ forall j a, In (j, a) l -> j = i /\ some_read a)).
  { intros x E1 y E2. rewrite E1 in E2. injection E2 as <-. apply (does_ret N (Nat.eqb i) (fun _ => (rc, p', um'))). split; [reflexivity|]. split; [reflexivity|]. intros j a []. }
  destruct (Z.ltb_spec 0 n) as [Hpos|Hz]; cbn [negb] in *; [|exact (Nil _ H _ eq_refl)].
  rewrite (eof_spec _ _ _ _ HL Hp) in *. cbn [bind] in H. eapply does_loc; [reflexivity|].
  replace (o =? zsum sizes) with false in * by lia.
  destruct (next_chunk_spec b sizes p o cs n HL Hp ltac:(lia) ltac:(lia) Hpos) as (c & Ec & Hc). rewrite Ec in *. cbn [bind] in H. eapply does_loc; [reflexivity|].
  destruct (ptr_in _ _ _ _ HL Hp ltac:(lia)) as (Pf & Pr & Ph).
  assert (Hc1 : 1 <= c <= cs /\ c <= n /\ p_roffset p + c <= nth (Z.to_nat (p_fileid p)) sizes 0) by lia.
  replace (c =? 0) with false in * by lia.
  rewrite Hfel in *. replace (p_roffset p * w <? 0) with false in * by nia.
  set (op := op_read (data_path (b_base b) (p_fileid p)) (Z.to_nat (p_roffset p * w)) (Z.to_nat (c * w))).
  assert (Hop : some_read op) by (unfold some_read, op; eauto).
  assert (Nil2 : forall x, x = Ret (rc, p', um') -> forall y : Z * bptr * mem, x = Ret y -> does1 (fun _ => mret y) f (fun l res f2 => f2 = f /\ res = (fun _ => (rc, p', um')) /\ forall j a, In (j, a) ((i, op) :: l) -> j = i /\ some_read a)).
  { intros x E1 y E2. rewrite E1 in E2. injection E2 as <-. apply (does_ret N (Nat.eqb i) (fun _ => (rc, p', um'))). split; [reflexivity|]. split; [reflexivity|]. intros j a [X|[]]. injection X as <- <-. auto. }
  destruct (fopen_r f (data_path (b_base b) (p_fileid p))) as [oc|] eqn:Ef.
  2:{ eapply does_op with (r := VNone); [unfold op, op_read; rewrite Ef; reflexivity|]. exact (Nil2 _ H _ eq_refl). }
  eapply does_op; [unfold op, op_read; rewrite Ef; reflexivity|]. cbv iota beta. cbv zeta in H.
  set (l := match oc with Some cont => pread cont (Z.to_nat (p_roffset p * w)) (Z.to_nat (c * w)) | None => [] end) in *.
  apply bind_inv in H. destruct H as (cb1 & E1 & H). rewrite E1. eapply does_loc; [reflexivity|].
  destruct (negb (length l =? Z.to_nat (c * w))%nat); [exact (Nil2 _ H _ eq_refl)|].
  apply bind_inv in H. destruct H as ([[[[rc1 um1] ai1] cb2] si] & E2 & H). rewrite E2. eapply does_loc; [reflexivity|]. cbv iota beta.
  destruct (negb (rc1 =? 0)); [exact (Nil2 _ H _ eq_refl)|].
  apply bind_inv in H. destruct H as ([rc2 p1] & E5 & H). rewrite E5. eapply does_loc; [reflexivity|]. cbv iota beta.
  destruct (seek_rel_fwd b sizes p o c HL Hp ltac:(lia)) as (p2 & E6 & Hp2). rewrite E5 in E6. injection E6 as -> ->.
  change (negb (0 =? 0)) with false in *. cbv iota in *.
  eapply does_mono; [|eapply IH with (o := o + c); [exact HW|exact Hp2|lia|exact H]]. cbn beta.
  intros l2 res f2 (-> & -> & HA). split; [reflexivity|]. split; [reflexivity|]. intros j a [X|X]; [injection X as <- <-; auto|]. apply HA; exact X.
Qed.

Lemma rows_or_missing f base sizes w o n : 0 <= n -> (exists rows, zlen rows = n /\ forall j v, nth_error rows j = Some v -> stored_row f base sizes w (o + Z.of_nat j) = Some v) \/
  (exists r, o <= r < o + n /\ stored_row f base sizes w r = None).
Proof.
  intros Hn. replace n with (Z.of_nat (Z.to_nat n)) by lia. generalize (Z.to_nat n) as m. clear n Hn.
  induction m as [|m IH].
  - left. exists []. split; [reflexivity|]. intros [|j] v H; discriminate.
  - destruct IH as [(rows & Hl & IH)|(r & Hr & IH)]; [|right; exists r; split; [lia|exact IH]].
    destruct (stored_row f base sizes w (o + Z.of_nat m)) as [v|] eqn:E; [left|right; exists (o + Z.of_nat m); split; [lia|exact E]].
    exists (rows ++ [v]). split; [rewrite zlen_app; change (zlen [v]) with 1; lia|]. intros j u Hj. unfold zlen in Hl.
    destruct (Nat.lt_ge_cases j (length rows)) as [L|L]; [rewrite nth_error_app1 in Hj by auto; auto|]. rewrite nth_error_app2 in Hj by auto.
    destruct (j - length rows)%nat eqn:Ed; [|destruct n; discriminate]. injection Hj as <-. replace (Z.of_nat j) with (Z.of_nat m) by lia. exact E.
Qed.

Lemma stored_row_width f base sizes w r v : 0 <= w -> stored_row f base sizes w r = Some v -> length v = Z.to_nat w.
Proof.
  clear Hi. unfold stored_row. intros Hw H. destruct (home sizes r) as [[k q]|] eqn:Eh; [|discriminate]. destruct (data_file f base k) as [c|]; [|discriminate].
  destruct (Z.leb_spec ((q + 1) * w) (zlen c)); [|discriminate]. injection H as <-. apply home_lt in Eh. rewrite firstn_length, skipn_length. unfold zlen in *. nia.
Qed.
(* The elements of whole rows. *)
Definition elems_of (isz : Z) (nm : Z) (rows : list bytes) : list bytes := concat (map (group (Z.to_nat isz) (Z.to_nat nm)) rows).
Lemma elems_of_spec isz nm rows : 0 < isz -> 0 < nm -> Forall (fun v => length v = Z.to_nat (isz * nm)) rows ->
  zlen (elems_of isz nm rows) = zlen rows * nm /\ Forall (fun v => length v = Z.to_nat isz) (elems_of isz nm rows) /\ rows_of nm (zlen rows) (elems_of isz nm rows) = rows /\
  concat (elems_of isz nm rows) = concat rows.
Proof.
  intros Hi0 Hn F. unfold elems_of. induction F as [|v rows Hv F IH]; [cbn; repeat split; auto|]. destruct IH as (A & B & C & D).
  assert (Hl : length v = (Z.to_nat nm * Z.to_nat isz)%nat) by nia. cbn [map concat].
  assert (L : length (group (Z.to_nat isz) (Z.to_nat nm) v) = Z.to_nat nm) by apply group_length.
  split; [rewrite zlen_app, zlen_cons, A; unfold zlen at 1; rewrite L; lia|]. split; [apply Forall_app; split; [apply group_lengths; exact Hl|exact B]|]. split.
  - rewrite zlen_cons. pose proof (zlen_nonneg rows). rewrite rows_of_app; try lia; [|unfold zlen; rewrite L; lia]. rewrite C. f_equal.
    unfold rows_of. change (Z.to_nat 1) with 1%nat. cbn [group map]. rewrite firstn_all2 by lia. rewrite group_concat by exact Hl. reflexivity.
  - rewrite concat_app, group_concat by exact Hl. rewrite D. reflexivity.
Qed.

Lemma root_read e b sizes w p o n gb f : wblock e b sizes w -> w <= e_chunk e -> w < 2 ^ 31 -> 0 <= n -> buf_mapped gb (n * w) ->
  ptr_at sizes p o -> o + n < 2 ^ 63 ->
  does1 (fun _ => block_read e b p (chunk_array (e_me e) b n) gb) f (fun l res f' => f' = f /\ (forall j a, In (j, a) l -> j = i /\ some_read a) /\
    exists rc p' gb', res = (fun _ => (rc, p', gb')) /\ buf_mapped gb' (n * w) /\ (rc = 0 \/ rc = -1) /\ (n = 0 -> rc = 0) /\
    (0 < n -> zsum sizes < o + n -> rc = -1) /\
    (0 < n -> (exists r, o <= r < o + n /\ stored_row f (b_base b) sizes w r = None) -> rc = -1) /\
    (forall rows, 0 < n -> o + n <= zsum sizes -> zlen rows = n -> (forall j v, nth_error rows j = Some v -> stored_row f (b_base b) sizes w (o + Z.of_nat j) = Some v) ->
       rc = 0 /\ load gb' 0 (Z.to_nat (n * w)) = Some (concat rows))).
Proof.
  intros HW Hwc Hw31 Hn Hgb Hp Hmax.
  pose proof (wb_wpos _ _ _ _ HW) as Hwp. pose proof (wb_nmemb _ _ _ _ HW) as Hnm. pose proof (wb_dt _ _ _ _ HW) as Hdt. assert (Hisz : 0 < itemsize (e_me e) (b_dtype b)) by apply Hdt.
  pose proof (pa_range _ _ _ Hp) as Hor. pose proof (wb_layout _ _ _ _ HW) as HL.
  unfold block_read. change (a_size (chunk_array (e_me e) b n)) with (n * b_nmemb b).
  rewrite (wb_felsize _ _ _ _ HW). replace (2 ^ 31 <=? Z.abs w) with false by lia. replace (w =? 0) with false by lia. cbv zeta.
  eapply does_loc; [apply chunk_array_init; apply HW|]. eapply does_loc; [rewrite (ptr_offset _ _ _ _ HL Hp); reflexivity|].
  rewrite (pa_abs _ _ _ Hp), (row_nmemb_pos b) by apply Hnm. rewrite Z.div_mul by lia.
  rewrite s64_id by lia. rewrite u64_id by lia. rewrite (hl_size _ _ HL).
  destruct (Z.ltb_spec (zsum sizes) (o + n)) as [Hout|Hin].
  { apply (does_ret N (Nat.eqb i) (fun _ => (-1, p, gb))). split; [reflexivity|]. split; [intros j a []|]. exists (-1), p, gb. split; [reflexivity|]. split; [exact Hgb|].
    split; [auto|]. split; [lia|]. split; [auto|]. split; [auto|]. lia. }
  rewrite (chunk_rows_spec _ _ _ _ HW) by auto. set (cs := e_chunk e / w).
  assert (Hcs : 0 < cs) by (apply Z.div_str_pos; lia).
  destruct (Z.eq_dec n 0) as [->|Hn0].
  { cbn [Z.to_nat rloop]. change (negb (0 <? 0)) with true. cbv iota. apply (does_ret N (Nat.eqb i) (fun _ => (0, p, gb))). split; [reflexivity|]. split; [intros j a []|].
    exists 0, p, gb. split; [reflexivity|]. split; [exact Hgb|]. split; [auto|]. split; [auto|]. split; [lia|]. split; lia. }
  set (ga := chunk_array (e_me e) b n).
  assert (Hga : array_ok ga) by (apply chunk_array_ok; lia).
  assert (Hdis : elems_disjoint (elem_addr ga) (itemsize (e_me e) (b_dtype b)) 0 (n * b_nmemb b)) by (apply chunk_disjoint; auto; lia).
  assert (Hmap : mapped gb (elem_addr ga) (itemsize (e_me e) (b_dtype b)) 0 (n * b_nmemb b)).
  { apply chunk_mapped; auto; try lia. rewrite <- (wb_w _ _ _ _ HW). auto. }
  assert (Htot : total_conv (e_me e) (b_dtype b) (b_dtype b)) by (intros v _; exists v; apply converts_self).
  assert (Hbm : buf_mapped (chunk_mem e) (cs * w)) by (apply chunk_mem_mapped; unfold cs; rewrite Z.mul_comm; apply Z.mul_div_le; lia).
  assert (Hit : iter_at (e_me e) (iter_init (e_me e) ga) ga 0) by (apply iter_init_at; auto).
  destruct (rows_or_missing f (b_base b) sizes w o n Hn) as [(rows & Hl & Hst)|Hmiss].
  - assert (Fw : Forall (fun v => length v = Z.to_nat (itemsize (e_me e) (b_dtype b) * b_nmemb b)) rows).
    { rewrite <- (wb_w _ _ _ _ HW). rewrite Forall_forall. intros v Hv. apply In_nth_error in Hv. destruct Hv as (j & Hj). eapply stored_row_width; [lia|]. apply Hst. exact Hj. }
    destruct (elems_of_spec _ _ rows Hisz Hnm Fw) as (A & B & C & D). set (es := elems_of _ _ rows) in *. rewrite Hl in *.
    destruct (read_loop_spec e sizes w ga cs Hga Hdt Hcs (S (Z.to_nat n)) n f b p (chunk_mem e) gb (iter_init (e_me e) ga) o 0 es es) as (p' & gb' & E & P & W); auto; try lia.
    { left; reflexivity. }
    { change (a_size ga) with (n * b_nmemb b). lia. }
    { rewrite C. exact Hst. }
    { apply converts_selfs. }
    { rewrite A. exact Hmap. }
    { rewrite A. exact Hdis. }
    change (a_dtype ga) with (b_dtype b) in W.
    eapply does_mono; [|eapply (rloop_does e sizes w _ cs f Hcs) with (o := o); [exact HW|exact Hp|lia|exact E]]. cbn beta.
    intros l res f2 (-> & -> & HA). split; [reflexivity|]. split; [exact HA|]. exists 0, p', gb'. split; [reflexivity|].
    assert (Hld : load gb' 0 (Z.to_nat (n * w)) = Some (concat rows)).
    { rewrite <- D. replace (n * w) with (zlen es * itemsize (e_me e) (b_dtype b)) by (rewrite A, (wb_w _ _ _ _ HW); ring).
      replace 0 with (0 + 0 * itemsize (e_me e) (b_dtype b)) by lia. apply concat_load with (addr := elem_addr ga); [lia| |exact (proj1 W)].
      intros j Hj. unfold ga. rewrite chunk_addr by lia. lia. }
    split; [|split; [auto|split; [auto|split; [lia|split]]]].
    + intros x Hx Hc0. rewrite (wrote_domain gb gb' (elem_addr ga) (itemsize (e_me e) (b_dtype b)) 0 es) in Hc0; auto; try lia; [apply (Hgb x); auto|].
      rewrite A. exact Hmap.
    + intros _ (r & Hr & Hm). exfalso. destruct (nth_error rows (Z.to_nat (r - o))) as [v|] eqn:Ev.
      * specialize (Hst _ _ Ev). replace (o + Z.of_nat (Z.to_nat (r - o))) with r in Hst by lia. congruence.
      * apply nth_error_None in Ev. unfold zlen in Hl. lia.
    + intros rows2 _ _ Hl2 Hst2. split; [reflexivity|]. rewrite Hld. do 2 f_equal. apply nth_error_ext_len; [unfold zlen in *; lia|]. intros j v v2 E1 E2.
      specialize (Hst _ _ E1). specialize (Hst2 _ _ E2). congruence.
  - destruct (read_loop_missing e sizes w ga cs Hga Hdt Hcs (S (Z.to_nat n)) n f b p (chunk_mem e) gb (iter_init (e_me e) ga) o 0) as (p' & gb' & E & _ & Fr); auto; try lia.
    { change (a_size ga) with (n * b_nmemb b). lia. }
    { destruct Hmiss as (r & Hr & Hm). exists (r - o). replace (o + (r - o)) with r by lia. split; [lia|exact Hm]. }
    eapply does_mono; [|eapply (rloop_does e sizes w _ cs f Hcs) with (o := o); [exact HW|exact Hp|lia|exact E]]. cbn beta.
    intros l res f2 (-> & -> & HA). split; [reflexivity|]. split; [exact HA|]. exists (-1), p', gb'. split; [reflexivity|].
    split; [|split; [auto|split; [lia|split; [auto|split; [auto|]]]]].
    + intros x Hx Hc0. apply Fr in Hc0. apply (Hgb x); auto.
    + intros rows _ _ Hl Hst. exfalso. destruct Hmiss as (r & Hr & Hm). destruct (nth_error rows (Z.to_nat (r - o))) as [v|] eqn:Ev.
      * specialize (Hst _ _ Ev). replace (o + Z.of_nat (Z.to_nat (r - o))) with r in Hst by lia. congruence.
      * apply nth_error_None in Ev. unfold zlen in Hl. lia.
Qed.
End Rank.
