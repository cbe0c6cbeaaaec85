(* Proofs about big_block_write. *)
From Coq.Strings Require Import Byte String.
From Coq Require Import List ZArith Lia Bool ZifyBool ZifyNat.
From Verif Require Import Base BaseFacts Dtype Cast Array FS Fmt Block Spec SeekFacts FSFacts ArrayFacts ConvFacts.
Import ListNotations.
Open Scope Z_scope.
Ltac Zify.zify_post_hook ::= Z.div_mod_to_equations.

(* ------------------------------------------------------------- grouping *)
Lemma group_length {A} k n : forall l : list A, length (group k n l) = n.
Proof. induction n; intros; simpl; auto. Qed.

Lemma group_app {A} k n1 n2 : forall l1 l2 : list A, length l1 = (n1 * k)%nat ->
  group k (n1 + n2) (l1 ++ l2) = group k n1 l1 ++ group k n2 l2.
Proof.
  induction n1; intros l1 l2 H.
  - destruct l1; [|discriminate]. reflexivity.
  - cbn [group plus app]. rewrite firstn_app, skipn_app.
    replace (k - length l1)%nat with O by lia. rewrite firstn_O, app_nil_r. cbn [skipn].
    rewrite IHn1 by (rewrite skipn_length; lia). reflexivity.
Qed.

Lemma group_concat {A} k n : forall l : list A, length l = (n * k)%nat -> concat (group k n l) = l.
Proof.
  induction n; intros l H; simpl.
  - destruct l; [auto|discriminate].
  - rewrite IHn by (rewrite skipn_length; lia). apply firstn_skipn.
Qed.

Lemma concat_map_concat {A} (l : list (list (list A))) : concat (map (@concat A) l) = concat (concat l).
Proof. induction l; simpl; auto. rewrite IHl, concat_app. reflexivity. Qed.

Lemma rows_of_length nm n es : length (rows_of nm n es) = Z.to_nat n.
Proof. unfold rows_of. rewrite map_length, group_length. reflexivity. Qed.

Lemma rows_of_app nm n1 n2 l1 l2 : 0 <= n1 -> 0 <= n2 -> zlen l1 = n1 * nm -> 0 <= nm ->
  rows_of nm (n1 + n2) (l1 ++ l2) = rows_of nm n1 l1 ++ rows_of nm n2 l2.
Proof.
  intros. unfold rows_of. rewrite Z2Nat.inj_add, group_app, map_app by (unfold zlen in *; nia). reflexivity.
Qed.

Lemma rows_of_concat nm n es : 0 <= n -> 0 <= nm -> zlen es = n * nm -> concat (rows_of nm n es) = concat es.
Proof.
  intros. unfold rows_of. rewrite concat_map_concat, group_concat by (unfold zlen in *; nia). reflexivity.
Qed.

Lemma concat_length_w (l : list bytes) w : Forall (fun v => length v = w) l -> length (concat l) = (length l * w)%nat.
Proof. induction 1; simpl; auto. rewrite app_length, IHForall. lia. Qed.

Lemma group_Forall {A} (P : A -> Prop) k n : forall l, Forall P l -> Forall (Forall P) (group k n l).
Proof.
  induction n; intros l H; simpl; constructor.
  - apply Forall_forall. intros x Hx. rewrite Forall_forall in H. apply H.
    rewrite <- (firstn_skipn k l). apply in_or_app. auto.
  - apply IHn. apply Forall_forall. intros x Hx. rewrite Forall_forall in H. apply H.
    rewrite <- (firstn_skipn k l). apply in_or_app. auto.
Qed.

Lemma group_lengths {A} k n : forall l : list A, length l = (n * k)%nat ->
  Forall (fun g => length g = k) (group k n l).
Proof.
  induction n; intros l H; simpl; constructor.
  - rewrite firstn_length. lia.
  - apply IHn. rewrite skipn_length. lia.
Qed.

Lemma rows_of_widths nm n isz es : 0 <= n -> 0 <= nm -> 0 <= isz -> zlen es = n * nm ->
  Forall (fun v => length v = Z.to_nat isz) es ->
  Forall (fun r => length r = Z.to_nat (isz * nm)) (rows_of nm n es).
Proof.
  intros Hn Hnm Hi Hl Hf. unfold rows_of. apply Forall_map.
  pose proof (group_Forall _ (Z.to_nat nm) (Z.to_nat n) es Hf) as H1.
  pose proof (group_lengths (Z.to_nat nm) (Z.to_nat n) es ltac:(unfold zlen in *; nia)) as H2.
  rewrite Forall_forall in *. intros g Hg. rewrite (concat_length_w g (Z.to_nat isz)) by auto.
  rewrite (H2 g Hg). nia.
Qed.

(* ------------------------------------------------------------- put_rows *)
Lemma data_file_ext f g base i : fs_eq f g -> data_file f base i = data_file g base i.
Proof. intros H. unfold data_file. rewrite H. reflexivity. Qed.

Lemma put_row_ext f g base sizes w r v : fs_eq f g ->
  fs_eq (put_row f base sizes w r v) (put_row g base sizes w r v).
Proof.
  intros H. unfold put_row. destruct (home sizes r) as [[i q]|]; auto.
  rewrite (data_file_ext f g) by auto. destruct (data_file g base i); auto.
  apply fs_eq_set. auto.
Qed.

Lemma put_rows_ext base sizes w rows : forall f g r, fs_eq f g ->
  fs_eq (put_rows f base sizes w r rows) (put_rows g base sizes w r rows).
Proof. induction rows; intros f g r H; simpl; auto. apply IHrows, put_row_ext, H. Qed.

Lemma put_rows_app base sizes w a : forall f r b,
  put_rows f base sizes w r (a ++ b) = put_rows (put_rows f base sizes w r a) base sizes w (r + zlen a) b.
Proof.
  induction a as [|v a IH]; intros f r b; simpl.
  - rewrite Z.add_0_r. reflexivity.
  - rewrite IH, zlen_cons. f_equal. lia.
Qed.

Lemma data_file_set_same f base i c : data_file (fs_set f (data_path base (Z.of_nat i)) (File c)) base i = Some c.
Proof. unfold data_file. rewrite fs_get_set_same by (apply data_path_proper; lia). reflexivity. Qed.

Lemma data_file_set_exists f base j i c : data_file f base i <> None ->
  data_file (fs_set f (data_path base (Z.of_nat j)) (File c)) base i <> None.
Proof.
  unfold data_file. rewrite fs_get_set by (apply data_path_proper; lia).
  destruct (path_eqb _ _); auto. discriminate.
Qed.

Lemma home_next sizes r i q : Forall (fun s => 0 <= s) sizes -> home sizes r = Some (i, q) ->
  forall d, 0 <= q + d < nth i sizes 0 -> home sizes (r + d) = Some (i, q + d).
Proof.
  intros Hn H d Hd. apply home_spec in H; auto. apply home_spec; auto. destruct H as (A & B & C).
  repeat split; auto; lia.
Qed.

Lemma put_rows_chunk base sizes w rows : forall f r i q c,
  Forall (fun s => 0 <= s) sizes -> 0 < w ->
  Forall (fun v => length v = Z.to_nat w) rows ->
  home sizes r = Some (i, q) -> q + zlen rows <= nth i sizes 0 ->
  data_file f base i = Some c -> rows <> [] ->
  fs_eq (put_rows f base sizes w r rows)
    (fs_set f (data_path base (Z.of_nat i)) (File (pwrite c (Z.to_nat (q * w)) (concat rows)))).
Proof.
  induction rows as [|v rows IH]; intros f r i q c Hn Hw Hl Hh Hq Hd Hne; [contradiction|].
  inversion Hl; subst. rewrite zlen_cons in Hq. pose proof (zlen_nonneg rows).
  assert (Hq0 : 0 <= q) by (apply home_spec in Hh; auto; lia).
  assert (Hvn : v <> []) by (intros ->; simpl in *; lia).
  cbn [put_rows]. rewrite (put_row_pwrite _ _ _ _ _ _ i q c) by auto.
  destruct rows as [|v' rows].
  - simpl. rewrite app_nil_r. apply fs_eq_refl.
  - eapply fs_eq_trans.
    + apply IH with (i := i) (q := q + 1) (c := pwrite c (Z.to_nat (q * w)) v); auto; try lia.
      * apply home_next; auto. rewrite zlen_cons in *. pose proof (zlen_nonneg rows). lia.
      * apply data_file_set_same.
      * discriminate.
    + eapply fs_eq_trans; [apply fs_set_set; apply data_path_proper; lia|].
      replace (Z.to_nat ((q + 1) * w)) with (Z.to_nat (q * w) + length v)%nat by nia.
      rewrite pwrite_app. apply fs_eq_refl.
Qed.

(* -------------------------------------------------------------- add_sums *)
Lemma byte_sum_app a b : byte_sum (a ++ b) = byte_sum a + byte_sum b.
Proof. unfold byte_sum. rewrite map_app, zsum_app. reflexivity. Qed.

Lemma byte_sum_nonneg l : 0 <= byte_sum l.
Proof.
  unfold byte_sum. apply zsum_nonneg. apply Forall_map. apply Forall_forall. intros c _.
  pose proof (b2z_range c). lia.
Qed.

Lemma sysvsum_spec l : forall s, 0 <= s < 2 ^ 32 -> sysvsum s l = (s + byte_sum l) mod 2 ^ 32.
Proof.
  unfold sysvsum. induction l as [|c l IH]; intros s Hs; simpl.
  - unfold byte_sum. simpl. rewrite Z.add_0_r. symmetry. apply Z.mod_small. auto.
  - rewrite IH by apply u32_range. unfold u32. rewrite Zplus_mod_idemp_l.
    f_equal. change (byte_sum (c :: l)) with (b2z c + byte_sum l). ring.
Qed.

Lemma add_sums_app sizes a : forall cks r b,
  add_sums cks sizes r (a ++ b) = add_sums (add_sums cks sizes r a) sizes (r + zlen a) b.
Proof.
  induction a as [|v a IH]; intros cks r b; simpl.
  - rewrite Z.add_0_r. reflexivity.
  - rewrite IH, zlen_cons. f_equal. lia.
Qed.

Lemma upd_upd {A} (l : list A) : forall n x y, upd (upd l n x) n y = upd l n y.
Proof. induction l; intros [|n] x y; simpl; auto. rewrite IHl. reflexivity. Qed.

Lemma nth_upd_same {A} (l : list A) n x d : (n < length l)%nat -> nth n (upd l n x) d = x.
Proof. intros. rewrite nth_upd by auto. rewrite Nat.eqb_refl. reflexivity. Qed.

Lemma add_sums_chunk sizes rows : forall cks r i q,
  Forall (fun s => 0 <= s) sizes -> (i < length cks)%nat ->
  home sizes r = Some (i, q) -> q + zlen rows <= nth i sizes 0 -> rows <> [] ->
  add_sums cks sizes r rows = upd cks i ((nth i cks 0 + byte_sum (concat rows)) mod 2 ^ 32).
Proof.
  induction rows as [|v rows IH]; intros cks r i q Hn Hi Hh Hq Hne; [contradiction|].
  rewrite zlen_cons in Hq. pose proof (zlen_nonneg rows).
  cbn [add_sums]. unfold add_sum. rewrite Hh.
  assert (Hq0 : 0 <= q) by (apply home_spec in Hh; auto; lia).
  destruct rows as [|v' rows].
  - simpl. rewrite app_nil_r. reflexivity.
  - rewrite IH with (i := i) (q := q + 1); auto; try lia.
    + rewrite upd_upd, nth_upd_same by auto. f_equal.
      rewrite Zplus_mod_idemp_l. change (concat (v :: v' :: rows)) with (v ++ concat (v' :: rows)).
      rewrite byte_sum_app. f_equal. ring.
    + rewrite upd_length. auto.
    + apply home_next; auto. rewrite zlen_cons in *. pose proof (zlen_nonneg rows). lia.
    + discriminate.
Qed.

Lemma add_sums_length sizes rows : forall cks r, length (add_sums cks sizes r rows) = length cks.
Proof.
  induction rows as [|v rows IH]; intros; simpl; auto. rewrite IH. unfold add_sum.
  destruct (home sizes r) as [[i q]|]; auto. apply upd_length.
Qed.

Lemma upd_Forall {A} (P : A -> Prop) (l : list A) : forall n x, Forall P l -> P x -> Forall P (upd l n x).
Proof.
  induction l; intros [|n] x H Hx; simpl; auto; inversion H; subst; constructor; auto.
Qed.

Lemma layout_set_cks b sizes cks : has_layout b sizes -> length cks = S (length sizes) ->
  Forall (fun c => 0 <= c < 2 ^ 32) cks -> has_layout (set_checksums b cks) sizes.
Proof. intros [] Hl Hc. constructor; auto. Qed.

Lemma layout_set_dirty b sizes d : has_layout b sizes -> has_layout (set_bdirty b d) sizes.
Proof. intros []. constructor; auto. Qed.

(* ---------------------------------------------------------- chunk buffer *)
Definition chunk_array (me : endian) (b : block) (cs : Z) : array :=
  mkArray 0 (b_dtype b) [cs; b_nmemb b]
    [itemsize me (b_dtype b) * b_nmemb b; itemsize me (b_dtype b)] (cs * b_nmemb b).

Lemma chunk_array_init me b cs : dt_ok me (b_dtype b) ->
  big_array_init me 0 (b_dtype b) [cs; b_nmemb b] None = Ret (chunk_array me b cs).
Proof.
  intros [Hn _]. unfold big_array_init, chunk_array. rewrite Hn. cbn.
  f_equal. f_equal. unfold zprod. simpl. lia.
Qed.

Lemma chunk_array_ok me b cs : 0 < cs -> 0 < b_nmemb b -> array_ok (chunk_array me b cs).
Proof.
  intros H1 H2. constructor; simpl; auto.
  - discriminate.
  - rewrite !zprod_cons, zprod_nil. lia.
Qed.

Lemma chunk_contig me b cs : contig_of me (chunk_array me b cs) = true.
Proof.
  unfold contig_of, elsize_of, chunk_array. cbn [a_dtype a_dims a_strides rev app contig_check].
  rewrite !Z.eqb_refl. reflexivity.
Qed.

Lemma chunk_addr me b cs k : 0 < cs -> 0 < b_nmemb b -> 0 <= k < cs * b_nmemb b ->
  elem_addr (chunk_array me b cs) k = k * itemsize me (b_dtype b).
Proof.
  intros. rewrite elem_addr_contig with (me := me); auto using chunk_array_ok, chunk_contig.
Qed.

Lemma chunk_disjoint me b cs n : 0 < cs -> 0 < b_nmemb b -> 0 < itemsize me (b_dtype b) ->
  n <= cs * b_nmemb b ->
  elems_disjoint (elem_addr (chunk_array me b cs)) (itemsize me (b_dtype b)) 0 n.
Proof. intros H1 H2 H3 Hn i j Hi Hj. rewrite !chunk_addr by lia. nia. Qed.

Definition buf_mapped (m : mem) (n : Z) : Prop := forall x, 0 <= x < n -> m x <> None.

Lemma chunk_mapped me b cs m n : 0 < cs -> 0 < b_nmemb b -> 0 < itemsize me (b_dtype b) ->
  n <= cs * b_nmemb b -> buf_mapped m (cs * (itemsize me (b_dtype b) * b_nmemb b)) ->
  mapped m (elem_addr (chunk_array me b cs)) (itemsize me (b_dtype b)) 0 n.
Proof.
  intros H1 H2 H3 Hn Hm x (j & Hj & Hx). rewrite chunk_addr in Hx by lia. apply Hm. nia.
Qed.

(* ---------------------------------------------------------- source memory *)
Lemma wrote_app m m1 m2 addr w k a b : 0 <= w -> wrote m m1 addr w k a -> wrote m1 m2 addr w (k + zlen a) b ->
  elems_disjoint addr w k (zlen a + zlen b) -> wrote m m2 addr w k (a ++ b).
Proof.
  intros Hw [A1 A2] [B1 B2] Hd. pose proof (zlen_nonneg a). pose proof (zlen_nonneg b). split.
  - intros j v Hj. destruct (Nat.ltb_spec j (length a)).
    + rewrite nth_error_app1 in Hj by auto. rewrite <- (A1 j v Hj). apply load_ext. intros i Hi.
      apply B2. intros (j' & Hj' & Hx). unfold zlen in *.
      destruct (Hd (k + Z.of_nat j) j'); lia.
    + rewrite nth_error_app2 in Hj by auto. rewrite <- (B1 _ v Hj). f_equal. f_equal. unfold zlen. lia.
  - intros x Hx. rewrite B2. 2:{ intros (j & Hj & E). apply Hx. exists j. rewrite zlen_app. lia. }
    apply A2. intros (j & Hj & E). apply Hx. exists j. rewrite zlen_app. lia.
Qed.

Lemma src_after_app me sm sm1 sm2 sa k a b : 0 <= itemsize me (a_dtype sa) ->
  src_after me sm sm1 sa k a -> src_after me sm1 sm2 sa (k + zlen a) b ->
  (dt_native me (a_dtype sa) = false ->
     elems_disjoint (elem_addr sa) (itemsize me (a_dtype sa)) k (zlen a + zlen b)) ->
  src_after me sm sm2 sa k (a ++ b).
Proof.
  unfold src_after. intros Hw H1 H2 Hd. destruct (dt_native me (a_dtype sa)); [congruence|].
  rewrite map_app. apply wrote_app with (m1 := sm1); auto.
  - unfold zlen in *. rewrite map_length. auto.
  - unfold zlen in *. rewrite !map_length. auto.
Qed.

Lemma src_after_holds me sm sm1 sa k a b : 0 <= itemsize me (a_dtype sa) ->
  src_after me sm sm1 sa k a ->
  (dt_native me (a_dtype sa) = false ->
     elems_disjoint (elem_addr sa) (itemsize me (a_dtype sa)) k (zlen a + zlen b)) ->
  holds sm (elem_addr sa) (itemsize me (a_dtype sa)) (k + zlen a) b ->
  holds sm1 (elem_addr sa) (itemsize me (a_dtype sa)) (k + zlen a) b.
Proof.
  unfold src_after. intros Hw H1 Hd Hh. destruct (dt_native me (a_dtype sa)); [subst; exact Hh|].
  apply holds_frame with (m := sm); auto. intros x (j & Hj & Hx). apply H1.
  intros (j' & Hj' & Hx'). unfold zlen in *. rewrite map_length in Hj'.
  destruct (Hd eq_refl j' j); lia.
Qed.

Lemma holds_app m addr w k a b : holds m addr w k (a ++ b) ->
  holds m addr w k a /\ holds m addr w (k + zlen a) b.
Proof.
  intros H. split; intros j v Hj.
  - apply H. rewrite nth_error_app1; auto. apply nth_error_Some. congruence.
  - rewrite <- (H (length a + j)%nat v).
    + f_equal. f_equal. unfold zlen. lia.
    + rewrite nth_error_app2 by lia. rewrite <- Hj. f_equal. lia.
Qed.

Lemma Forall2_app_split {A B} (P : A -> B -> Prop) l1 l2 l' : Forall2 P (l1 ++ l2) l' ->
  exists a b, l' = a ++ b /\ Forall2 P l1 a /\ Forall2 P l2 b.
Proof. intros H. apply Forall2_app_inv_l in H. destruct H as (a & b & H1 & H2 & ->). eauto. Qed.

Lemma dt_itemsize_norm me d : dt_ok me d -> itemsize me (dtype_normalize me d) = itemsize me d.
Proof. intros [H _]. rewrite H. reflexivity. Qed.

(* ------------------------------------------------------------- the loop *)
Lemma wb_felsize e b sizes w : wblock e b sizes w -> felsize e b = w.
Proof.
  intros H. rewrite (wb_w _ _ _ _ H). unfold felsize, row_nmemb. pose proof (wb_nmemb _ _ _ _ H).
  replace (b_nmemb b =? 0) with false by lia. reflexivity.
Qed.

Lemma next_chunk_spec b sizes p o cs todo : has_layout b sizes -> ptr_at sizes p o -> o < zsum sizes ->
  0 <= cs -> 0 < todo -> exists c, next_chunk b p cs todo = Ret c /\
   c = Z.min (Z.min cs (nth (Z.to_nat (p_fileid p)) sizes 0 - p_roffset p)) todo.
Proof.
  intros HL Hp Ho Hcs Ht. destruct (ptr_in _ _ _ _ HL Hp Ho) as (A & B & C).
  unfold next_chunk. rewrite (fsize_nth b sizes) by auto. cbn [or_ub bind].
  eexists. split; [reflexivity|].
  assert (Hns : nth (Z.to_nat (p_fileid p)) sizes 0 <= zsum sizes).
  { pose proof (first_row_S sizes (Z.to_nat (p_fileid p)) ltac:(unfold zlen in A; lia)).
    pose proof (first_row_nonneg sizes (Z.to_nat (p_fileid p)) (hl_nonneg _ _ HL)).
    pose proof (first_row_le sizes (S (Z.to_nat (p_fileid p))) (hl_nonneg _ _ HL)). lia. }
  pose proof (hl_small _ _ HL).
  rewrite u64_id by lia.
  destruct (Z.ltb_spec (nth (Z.to_nat (p_fileid p)) sizes 0 - p_roffset p) cs);
  match goal with |- context[todo <? ?b] => destruct (Z.ltb_spec todo b) end; lia.
Qed.

Lemma files_rows f base sizes lo hi : Forall (fun s => 0 <= s) sizes -> files_exist f base sizes -> rows_exist f base sizes lo hi.
Proof. intros Hs H r i q _ Hh. apply H. apply home_spec in Hh; auto. apply Hh. Qed.

Lemma write_loop_spec e sizes w a cs base : array_ok a -> dt_ok (e_me e) (a_dtype a) -> 0 < cs ->
  forall fuel n f b p cb um ai o k vs outs,
  wblock e b sizes w -> b_base b = base ->
  convertible (e_me e) (a_dtype a) (b_dtype b) ->
  buf_mapped cb (cs * w) ->
  iter_at (e_me e) ai a k -> 0 <= k -> k + zlen vs <= a_size a ->
  holds um (elem_addr a) (itemsize (e_me e) (a_dtype a)) k vs ->
  (dt_native (e_me e) (a_dtype a) = false ->
     elems_disjoint (elem_addr a) (itemsize (e_me e) (a_dtype a)) k (zlen vs)) ->
  0 <= n -> zlen vs = n * b_nmemb b ->
  Forall2 (converts (e_me e) (a_dtype a) (b_dtype b)) vs outs ->
  ptr_at sizes p o -> o + n <= zsum sizes -> rows_exist f base sizes o (o + n) ->
  n < Z.of_nat fuel ->
  exists f' p' um',
    write_loop e f b p cb (chunk_array (e_me e) b cs) um ai cs n fuel
      = Ret (0, f', set_checksums b (add_sums (b_fchecksum b) sizes o (rows_of (b_nmemb b) n outs)), p', um') /\
    fs_eq f' (put_rows f base sizes w o (rows_of (b_nmemb b) n outs)) /\
    ptr_at sizes p' (o + n) /\
    src_after (e_me e) um um' a k vs.
Proof.
  intros Ha Hda Hcs. induction fuel as [|fuel IH];
    intros n f b p cb um ai o k vs outs HW Hbase Hconv Hcb Hi Hk0 Hk Hh Hd Hn Hlen Hf Hp Ho Hfe Hfuel; [lia|].
  pose proof (wb_layout _ _ _ _ HW) as HL. pose proof (wb_felsize _ _ _ _ HW) as Hfel.
  pose proof (wb_nmemb _ _ _ _ HW) as Hnm. pose proof (wb_dt _ _ _ _ HW) as Hdb.
  assert (Hisz : 0 < itemsize (e_me e) (b_dtype b)) by apply Hdb.
  assert (Hisa : 0 < itemsize (e_me e) (a_dtype a)) by apply Hda.
  assert (Hw : 0 < w) by (rewrite (wb_w _ _ _ _ HW); nia).
  pose proof (pa_range _ _ _ Hp) as Hor.
  cbn [write_loop]. destruct (Z.ltb_spec 0 n) as [Hpos|Hz]; cbn [negb].
  2:{ assert (n = 0) by lia. subst n. assert (vs = []) by (destruct vs; auto; rewrite zlen_cons in Hlen; pose proof (zlen_nonneg vs); lia).
      subst vs. inversion Hf; subst. exists f, p, um. rewrite Z.add_0_r. unfold rows_of. simpl.
      repeat split; auto; try apply Hp.
      - unfold set_checksums. destruct b; reflexivity.
      - unfold src_after. destruct (dt_native _ _); auto. apply wrote_nil. }
  rewrite (eof_spec _ _ _ _ HL Hp). cbn [bind].
  replace (o =? zsum sizes) with false by lia.
  destruct (next_chunk_spec b sizes p o cs n HL Hp ltac:(lia) ltac:(lia) Hpos) as (c & -> & Hc). cbn [bind].
  destruct (ptr_in _ _ _ _ HL Hp ltac:(lia)) as (Pf & Pr & Ph).
  set (i := Z.to_nat (p_fileid p)) in *.
  assert (Hc1 : 1 <= c <= cs /\ c <= n /\ p_roffset p + c <= nth i sizes 0) by lia.
  (* split the elements *)
  set (m := Z.to_nat (c * b_nmemb b)).
  assert (Hm : Z.of_nat m = c * b_nmemb b) by (unfold m; nia).
  assert (Hvs : vs = firstn m vs ++ skipn m vs) by (symmetry; apply firstn_skipn).
  set (vs1 := firstn m vs) in *. set (vs2 := skipn m vs) in *.
  assert (Hl1 : zlen vs1 = c * b_nmemb b).
  { unfold vs1, zlen. rewrite firstn_length. unfold zlen in Hlen. nia. }
  assert (Hl2 : zlen vs2 = (n - c) * b_nmemb b).
  { rewrite Hvs, zlen_app in Hlen. nia. }
  assert (Hlm : length vs1 = m) by (unfold zlen in Hl1; lia).
  rewrite Hvs in Hf. apply Forall2_app_split in Hf. destruct Hf as (outs1 & outs2 & -> & Hf1 & Hf2).
  rewrite Hvs in Hh. apply holds_app in Hh. destruct Hh as [Hh1 Hh2].
  assert (Hlsum : zlen vs = zlen vs1 + zlen vs2) by (rewrite Hvs at 1; apply zlen_app).
  pose proof (zlen_nonneg vs2) as Hnn2.
  pose proof (zlen_nonneg vs1) as Hnn1.
  (* convert *)
  set (ca := chunk_array (e_me e) b cs).
  assert (Hca : array_ok ca) by (apply chunk_array_ok; lia).
  destruct (convert_spec (e_me e) cb (iter_init (e_me e) ca) ca um ai a 0 k vs1 outs1)
    as (cb1 & di' & um1 & ai1 & E1 & _ & Hai1 & Hwr & Hsrc); auto.
  { apply iter_init_at; auto. }
  { lia. }
  { change (a_size ca) with (cs * b_nmemb b). nia. }
  { lia. }
  { apply chunk_mapped; auto; try lia. nia. rewrite <- (wb_w _ _ _ _ HW). auto. }
  { apply chunk_disjoint; auto. nia. }
  { intros Hna. specialize (Hd Hna). intros x y Hx Hy. apply Hd; lia. }
  change (a_dtype ca) with (b_dtype b) in *.
  rewrite Hlm in E1. rewrite E1. cbn [bind]. change (negb (0 =? 0)) with false. cbv iota.
  (* load *)
  rewrite Hfel.
  pose proof (Forall2_length Hf1) as Hlo1.
  assert (Hlz1 : zlen outs1 = c * b_nmemb b) by (unfold zlen in *; lia).
  assert (Hload : load cb1 0 (Z.to_nat (c * w)) = Some (concat outs1)).
  { pose proof (concat_load cb1 (elem_addr ca) (itemsize (e_me e) (b_dtype b)) 0 outs1 0 ltac:(lia)) as HX.
    replace (zlen outs1 * itemsize (e_me e) (b_dtype b)) with (c * w) in HX
      by (rewrite Hlz1, (wb_w _ _ _ _ HW); ring).
    apply HX.
    - intros j Hj. unfold ca. rewrite chunk_addr by nia. lia.
    - exact (proj1 Hwr). }
  rewrite Hload. cbn [or_ub bind].
  (* checksums *)
  assert (Hcl := hl_cks _ _ HL). assert (Hcr := hl_cksr _ _ HL).
  assert (Hil : (i < length sizes)%nat) by (unfold i, zlen in *; lia).
  rewrite (znth_nth (b_fchecksum b) (p_fileid p) 0) by (unfold zlen in *; lia). cbn [or_ub bind].
  rewrite zupd_some by (unfold zlen in *; lia). cbn [or_ub bind]. fold i.
  assert (Hcki : 0 <= nth i (b_fchecksum b) 0 < 2 ^ 32).
  { rewrite Forall_forall in Hcr. apply Hcr. apply nth_In. lia. }
  rewrite sysvsum_spec by auto.
  set (rows1 := rows_of (b_nmemb b) c outs1).
  assert (Hrc : concat rows1 = concat outs1) by (apply rows_of_concat; lia).
  assert (Hrl : zlen rows1 = c) by (unfold zlen, rows1; rewrite rows_of_length; lia).
  assert (Hrne : rows1 <> []) by (intros Hx; rewrite Hx in Hrl; simpl in Hrl; unfold zlen in Hrl; simpl in Hrl; lia).
  assert (Hrw : Forall (fun v => length v = Z.to_nat w) rows1).
  { rewrite (wb_w _ _ _ _ HW). apply rows_of_widths; try lia. eapply holds_Forall. exact (proj1 Hwr). }
  assert (Hcks : upd (b_fchecksum b) i ((nth i (b_fchecksum b) 0 + byte_sum (concat outs1)) mod 2 ^ 32)
                 = add_sums (b_fchecksum b) sizes o rows1).
  { rewrite (add_sums_chunk sizes rows1 (b_fchecksum b) o i (p_roffset p)); auto; try lia.
    - rewrite Hrc. reflexivity.
    - apply HL. }
  rewrite Hcks. set (b1 := set_checksums b (add_sums (b_fchecksum b) sizes o rows1)).
  (* file *)
  rewrite Hbase.
  destruct (data_file f base i) as [cont|] eqn:Ecf. 2:{ exfalso. apply (Hfe o i (p_roffset p)); auto; lia. }
  assert (Hpath : data_path base (p_fileid p) = data_path base (Z.of_nat i)) by (unfold i; f_equal; lia).
  rewrite Hpath. unfold fopen_rp. unfold data_file in Ecf.
  destruct (fs_get f (data_path base (Z.of_nat i))) as [[|cont']|] eqn:Eg; try discriminate. injection Ecf as ->.
  replace (p_roffset p * w <? 0) with false by nia.
  assert (HL1 : has_layout b1 sizes).
  { apply layout_set_cks; auto. rewrite add_sums_length. auto. rewrite <- Hcks. apply upd_Forall; auto.
    apply Z.mod_pos_bound. lia. }
  destruct (seek_rel_fwd b1 sizes p o c HL1 Hp ltac:(lia)) as (p1 & -> & Hp1). cbn [bind].
  change (negb (0 =? 0)) with false. cbv iota.
  set (f1 := fs_set f (data_path base (Z.of_nat i)) (File (pwrite cont (Z.to_nat (p_roffset p * w)) (concat outs1)))).
  assert (Hfs1 : fs_eq f1 (put_rows f base sizes w o rows1)).
  { apply fs_eq_sym. unfold f1. rewrite <- Hrc. apply put_rows_chunk; auto; try lia.
    - apply HL.
    - unfold data_file. rewrite Eg. reflexivity. }
  destruct (IH (n - c) f1 b1 p1 cb1 um1 ai1 (o + c) (k + zlen vs1) vs2 outs2)
    as (f' & p' & um' & E2 & F2 & P2 & S2); auto; try lia.
  { constructor; auto; apply HW. }
  { intros x Hx. intros Hc0.
    rewrite (wrote_domain cb cb1 (elem_addr ca) (itemsize (e_me e) (b_dtype b)) 0 outs1) in Hc0; auto; try lia.
    - apply (Hcb x); auto.
    - apply chunk_mapped; auto; try nia. rewrite <- (wb_w _ _ _ _ HW). auto. }
  { eapply src_after_holds; eauto; try lia. rewrite <- Hlsum. auto. }
  { intros Hna. specialize (Hd Hna). intros x y Hx Hy. apply Hd; lia. }
  { intros r j q Hr Hj. apply data_file_set_exists. apply (Hfe r j q); auto; lia. }
  change (b_nmemb b1) with (b_nmemb b) in *.
  assert (Hrows : rows_of (b_nmemb b) n (outs1 ++ outs2) = rows1 ++ rows_of (b_nmemb b) (n - c) outs2).
  { unfold rows1. replace n with (c + (n - c)) at 1 by ring. apply rows_of_app; lia. }
  change (chunk_array (e_me e) b1 cs) with ca in E2.
  rewrite E2. exists f', p', um'. split; [|split; [|split]].
  - rewrite Hrows, add_sums_app, Hrl. unfold b1. reflexivity.
  - rewrite Hrows, put_rows_app, Hrl. eapply fs_eq_trans; [exact F2|]. apply put_rows_ext. auto.
  - replace (o + n) with (o + c + (n - c)) by lia. auto.
  - rewrite Hvs. eapply src_after_app; eauto; try lia. rewrite <- Hlsum. auto.
Qed.

(* ------------------------------------------------------- the whole write *)
Lemma wb_dirty e b sizes w d : wblock e b sizes w -> wblock e (set_bdirty b d) sizes w.
Proof. intros []. constructor; auto. apply layout_set_dirty; auto. Qed.

Lemma row_nmemb_pos b : 0 < b_nmemb b -> row_nmemb b = b_nmemb b.
Proof. intros. unfold row_nmemb. replace (b_nmemb b =? 0) with false by lia. reflexivity. Qed.

Lemma chunk_rows_spec e b sizes w : wblock e b sizes w -> w < 2 ^ 31 -> chunk_rows e b = e_chunk e / w.
Proof.
  intros HW Hw. unfold chunk_rows. rewrite (wb_felsize _ _ _ _ HW). rewrite u64_id; auto.
  pose proof (wb_w _ _ _ _ HW). pose proof (wb_nmemb _ _ _ _ HW). destruct (wb_dt _ _ _ _ HW). nia.
Qed.

Lemma wb_wpos e b sizes w : wblock e b sizes w -> 0 < w.
Proof.
  intros HW. pose proof (wb_w _ _ _ _ HW). pose proof (wb_nmemb _ _ _ _ HW). destruct (wb_dt _ _ _ _ HW). nia.
Qed.

Lemma chunk_mem_mapped e n : n <= e_chunk e -> buf_mapped (chunk_mem e) n.
Proof.
  intros H x Hx. unfold chunk_mem. replace ((0 <=? x) && (x <? e_chunk e)) with true by lia. discriminate.
Qed.

Lemma write_spec e sizes w a f b p um o vs outs n :
  wblock e b sizes w -> w <= e_chunk e -> w < 2 ^ 31 ->
  array_ok a -> dt_ok (e_me e) (a_dtype a) ->
  convertible (e_me e) (a_dtype a) (b_dtype b) ->
  n = a_size a / b_nmemb b -> zlen vs = n * b_nmemb b ->
  holds um (elem_addr a) (itemsize (e_me e) (a_dtype a)) 0 vs ->
  (dt_native (e_me e) (a_dtype a) = false ->
     elems_disjoint (elem_addr a) (itemsize (e_me e) (a_dtype a)) 0 (zlen vs)) ->
  Forall2 (converts (e_me e) (a_dtype a) (b_dtype b)) vs outs ->
  ptr_at sizes p o -> o + n <= zsum sizes -> files_exist f (b_base b) sizes ->
  exists f' p' um',
    big_block_write e f b p a um
      = Ret (0, f', set_checksums (set_bdirty b true)
               (add_sums (b_fchecksum b) sizes o (rows_of (b_nmemb b) n outs)), p', um') /\
    fs_eq f' (put_rows f (b_base b) sizes w o (rows_of (b_nmemb b) n outs)) /\
    ptr_at sizes p' (o + n) /\
    src_after (e_me e) um um' a 0 vs.
Proof.
  intros HW Hwc Hw31 Ha Hda Hconv Hn Hlen Hh Hd Hf Hp Ho Hfe.
  assert (Hsz : 0 < a_size a) by (rewrite (ao_size _ Ha); apply zprod_pos; apply Ha).
  pose proof (wb_wpos _ _ _ _ HW) as Hwp. pose proof (wb_nmemb _ _ _ _ HW) as Hnm.
  unfold big_block_write, big_block_write_fuel. replace (a_size a =? 0) with false by lia.
  pose proof (wb_dirty _ _ _ _ true HW) as HW1. set (b1 := set_bdirty b true) in *.
  rewrite (wb_felsize _ _ _ _ HW1). replace (2 ^ 31 <=? Z.abs w) with false by lia.
  replace (w =? 0) with false by lia. cbv zeta.
  rewrite (chunk_array_init (e_me e) b1) by apply HW1. cbn [bind].
  rewrite (chunk_rows_spec _ _ _ _ HW1) by auto.
  pose proof (wb_layout _ _ _ _ HW1) as HL.
  rewrite (ptr_offset _ _ _ _ HL Hp). cbn [or_ub bind].
  rewrite (pa_abs _ _ _ Hp). rewrite (row_nmemb_pos b), (row_nmemb_pos b1) by apply Hnm.
  change (b_nmemb b1) with (b_nmemb b). rewrite <- Hn.
  assert (Hn0 : 0 <= n) by (subst n; apply Z.div_pos; lia).
  pose proof (pa_range _ _ _ Hp). pose proof (hl_small _ _ HL).
  rewrite s64_id by lia. rewrite u64_id by lia. rewrite (hl_size _ _ HL).
  replace (zsum sizes <? o + n) with false by lia.
  destruct (write_loop_spec e sizes w a (e_chunk e / w) (b_base b) Ha Hda ltac:(apply Z.div_str_pos; lia)
     (S (Z.to_nat n)) n f b1 p (chunk_mem e) um (iter_init (e_me e) a) o 0 vs outs)
    as (f' & p' & um' & E & F & P & S); auto; try lia.
  - apply chunk_mem_mapped. rewrite Z.mul_comm. apply Z.mul_div_le. lia.
  - apply iter_init_at; auto.
  - apply files_rows; [apply HL|exact Hfe].
  - rewrite E. exists f', p', um'. auto.
Qed.

(* A write past the end is refused before anything is written. *)
Lemma write_range e sizes w a f b p um o :
  wblock e b sizes w -> w < 2 ^ 31 -> a_size a <> 0 ->
  ptr_at sizes p o -> zsum sizes < o + a_size a / b_nmemb b -> o + a_size a / b_nmemb b < 2 ^ 64 ->
  big_block_write e f b p a um = Ret (-1, f, set_bdirty b true, p, um).
Proof.
  intros HW Hw31 Hsz Hp Ho Hmax.
  pose proof (wb_wpos _ _ _ _ HW) as Hwp. pose proof (wb_nmemb _ _ _ _ HW) as Hnm.
  unfold big_block_write, big_block_write_fuel. replace (a_size a =? 0) with false by lia.
  pose proof (wb_dirty _ _ _ _ true HW) as HW1. set (b1 := set_bdirty b true) in *.
  rewrite (wb_felsize _ _ _ _ HW1). replace (2 ^ 31 <=? Z.abs w) with false by lia.
  replace (w =? 0) with false by lia. cbv zeta.
  rewrite (chunk_array_init (e_me e) b1) by apply HW1. cbn [bind].
  pose proof (wb_layout _ _ _ _ HW1) as HL.
  rewrite (ptr_offset _ _ _ _ HL Hp). cbn [or_ub bind].
  rewrite (pa_abs _ _ _ Hp). rewrite (row_nmemb_pos b), (row_nmemb_pos b1) by apply Hnm.
  change (b_nmemb b1) with (b_nmemb b).
  rewrite u64_s64, u64_id, (hl_size _ _ HL).
  2:{ pose proof (zsum_range _ _ HL). lia. }
  replace (zsum sizes <? o + a_size a / b_nmemb b) with true by lia. reflexivity.
Qed.

(* An unsupported conversion is refused before anything is written. *)
Lemma write_unsupported e sizes w a f b p um o vs n :
  wblock e b sizes w -> w <= e_chunk e -> w < 2 ^ 31 ->
  array_ok a -> dt_ok (e_me e) (a_dtype a) ->
  ~ convertible (e_me e) (a_dtype a) (b_dtype b) ->
  n = a_size a / b_nmemb b -> 0 < n -> zlen vs = n * b_nmemb b ->
  holds um (elem_addr a) (itemsize (e_me e) (a_dtype a)) 0 vs ->
  (dt_native (e_me e) (a_dtype a) = false ->
     elems_disjoint (elem_addr a) (itemsize (e_me e) (a_dtype a)) 0 (zlen vs)) ->
  ptr_at sizes p o -> o + n <= zsum sizes ->
  exists um', big_block_write e f b p a um = Ret (-1, f, set_bdirty b true, p, um').
Proof.
  intros HW Hwc Hw31 Ha Hda Hconv Hn Hn0 Hlen Hh Hd Hp Ho.
  assert (Hsz : 0 < a_size a) by (rewrite (ao_size _ Ha); apply zprod_pos; apply Ha).
  pose proof (wb_wpos _ _ _ _ HW) as Hwp. pose proof (wb_nmemb _ _ _ _ HW) as Hnm.
  unfold big_block_write, big_block_write_fuel. replace (a_size a =? 0) with false by lia.
  pose proof (wb_dirty _ _ _ _ true HW) as HW1. set (b1 := set_bdirty b true) in *.
  rewrite (wb_felsize _ _ _ _ HW1). replace (2 ^ 31 <=? Z.abs w) with false by lia.
  replace (w =? 0) with false by lia. cbv zeta.
  rewrite (chunk_array_init (e_me e) b1) by apply HW1. cbn [bind].
  rewrite (chunk_rows_spec _ _ _ _ HW1) by auto.
  pose proof (wb_layout _ _ _ _ HW1) as HL.
  rewrite (ptr_offset _ _ _ _ HL Hp). cbn [or_ub bind].
  rewrite (pa_abs _ _ _ Hp). rewrite (row_nmemb_pos b), (row_nmemb_pos b1) by apply Hnm.
  change (b_nmemb b1) with (b_nmemb b). rewrite <- Hn.
  pose proof (pa_range _ _ _ Hp). pose proof (hl_small _ _ HL).
  rewrite s64_id by lia. rewrite u64_id by lia. rewrite (hl_size _ _ HL).
  replace (zsum sizes <? o + n) with false by lia.
  cbn [write_loop]. replace (0 <? n) with true by lia. cbn [negb].
  rewrite (eof_spec _ _ _ _ HL Hp). cbn [bind]. replace (o =? zsum sizes) with false by lia.
  assert (Hcs : 0 < e_chunk e / w) by (apply Z.div_str_pos; lia).
  destruct (next_chunk_spec b1 sizes p o (e_chunk e / w) n HL Hp ltac:(lia) ltac:(lia) Hn0) as (c & -> & Hc). cbn [bind].
  destruct (ptr_in _ _ _ _ HL Hp ltac:(lia)) as (Pf & Pr & Ph).
  set (m := Z.to_nat (c * b_nmemb b)).
  assert (Hm : Z.of_nat m = c * b_nmemb b) by (unfold m; nia).
  assert (Hvs : vs = firstn m vs ++ skipn m vs) by (symmetry; apply firstn_skipn).
  set (vs1 := firstn m vs) in *. set (vs2 := skipn m vs) in *.
  assert (Hl1 : zlen vs1 = c * b_nmemb b).
  { unfold vs1, zlen. rewrite firstn_length. unfold zlen in Hlen. nia. }
  assert (Hlm : length vs1 = m) by (unfold zlen in Hl1; lia).
  rewrite Hvs in Hh. apply holds_app in Hh. destruct Hh as [Hh1 Hh2].
  change (b_nmemb b1) with (b_nmemb b). fold m.
  assert (Hle : zlen vs1 <= zlen vs) by (rewrite Hvs, zlen_app; pose proof (zlen_nonneg vs2); lia).
  assert (Hva : zlen vs <= a_size a).
  { rewrite Hlen, Hn, Z.mul_comm. apply Z.mul_div_le. lia. }
  assert (Hca : array_ok (chunk_array (e_me e) b1 (e_chunk e / w))) by (apply chunk_array_ok; auto).
  destruct (convert_unsupported (e_me e) (chunk_mem e) (iter_init (e_me e) (chunk_array (e_me e) b1 (e_chunk e / w)))
    (chunk_array (e_me e) b1 (e_chunk e / w)) um (iter_init (e_me e) a) a 0 0 vs1) as (um' & E & _); auto; try lia.
  - apply iter_init_at; auto.
  - apply iter_init_at; auto.
  - intros Hna. specialize (Hd Hna). intros x y Hx Hy. apply Hd; lia.
  - rewrite Hlm in E. rewrite E. cbn [bind]. exists um'. reflexivity.
Qed.

(* Converting no element succeeds without effect. *)
Lemma cast0 me dm di da sm si sa :
  it_arr di = da -> it_arr si = sa -> a_strides da <> [] -> a_strides sa <> [] ->
  0 <= itemsize me (a_dtype da) ->
  convertible me (a_dtype sa) (a_dtype da) ->
  exists di' si', cast me dm di sm si 0 = Ret (Some (dm, di', si')) /\ it_arr di' = da /\ it_arr si' = sa.
Proof.
  intros Hd Hs Nd Ns Hi Hc. unfold cast. rewrite Hd, Hs.
  destruct (bytes_eqb (suffix (a_dtype da)) (suffix (a_dtype sa))) eqn:E.
  - destruct (it_contig di && it_contig si).
    + assert (L : forall a, a_strides a <> [] -> exists s, last_stride a = Some s).
      { intros a Hn. unfold last_stride. destruct (rev (a_strides a)) eqn:Er; eauto.
        apply (f_equal (@rev Z)) in Er. rewrite rev_involutive in Er. simpl in Er. contradiction. }
      destruct (L da Nd) as [s1 ->]. destruct (L sa Ns) as [s2 ->]. cbn [or_ub bind].
      replace (Z.of_nat 0 * s1 <? 0) with false by lia. 
      replace (Z.to_nat (Z.of_nat 0 * s1)) with O by lia. cbn [load or_ub bind store].
      eexists _, _. split; [reflexivity|]. auto.
    + cbn [Nat.eqb negb]. rewrite andb_false_r. cbn [copy_loop bind]. eauto.
  - destruct (cast_table me (suffix (a_dtype da)) (suffix (a_dtype sa))) as [[[sw dw] g]|] eqn:Ec.
    + cbn [copy_loop bind]. eauto.
    + exfalso. destruct Hc as [Hc|Hc]; [|congruence]. apply bytes_eqb_neq in E. congruence.
Qed.

Lemma byte_swap0 me m it : byte_swap me m it 0 = Ret m.
Proof. unfold byte_swap. destruct (_ =? 1); reflexivity. Qed.

Lemma convert0 me dm di da sm si sa :
  it_arr di = da -> it_arr si = sa -> a_strides da <> [] -> a_strides sa <> [] ->
  0 <= itemsize me (a_dtype da) ->
  convertible me (a_dtype sa) (a_dtype da) ->
  exists di' si', dtype_convert me dm di sm si 0 = Ret (0, dm, di', sm, si') /\ it_arr di' = da /\ it_arr si' = sa.
Proof.
  intros Hd Hs Nd Ns Hi Hc. unfold dtype_convert. rewrite !byte_swap0.
  destruct (cast0 me dm di da sm si sa Hd Hs Nd Ns Hi Hc) as (di' & si' & E & A & B).
  exists di', si'. destruct (native me (it_arr si)); cbn [bind]; rewrite E; cbn [bind];
    destruct (native me (it_arr di)); rewrite ?byte_swap0; cbn [bind]; auto.
Qed.

(* With a buffer smaller than one row the write loop never makes progress. *)
Lemma write_loop_stuck e sizes w a : array_ok a -> dt_ok (e_me e) (a_dtype a) ->
  forall fuel f b p cb um ai o n,
  wblock e b sizes w -> convertible (e_me e) (a_dtype a) (b_dtype b) ->
  it_arr ai = a -> ptr_at sizes p o -> o < zsum sizes -> 0 < n -> files_exist f (b_base b) sizes ->
  write_loop e f b p cb (chunk_array (e_me e) b 0) um ai 0 n fuel = Diverge.
Proof.
  intros Ha Hda. induction fuel as [|fuel IH]; intros f b p cb um ai o n HW Hc Hi Hp Ho Hn Hfe; [reflexivity|].
  pose proof (wb_layout _ _ _ _ HW) as HL. pose proof (wb_felsize _ _ _ _ HW) as Hfel.
  pose proof (wb_wpos _ _ _ _ HW) as Hwp.
  cbn [write_loop]. replace (0 <? n) with true by lia. cbn [negb].
  rewrite (eof_spec _ _ _ _ HL Hp). cbn [bind]. replace (o =? zsum sizes) with false by lia.
  destruct (next_chunk_spec b sizes p o 0 n HL Hp ltac:(lia) ltac:(lia) Hn) as (c & -> & Hcc). cbn [bind].
  destruct (ptr_in _ _ _ _ HL Hp ltac:(lia)) as (Pf & Pr & Ph).
  assert (c = 0) by lia. clear Hcc. subst c. change (Z.to_nat (0 * b_nmemb b)) with O.
  assert (Hst : a_strides a <> []).
  { pose proof (ao_len _ Ha) as Hl. pose proof (ao_ndim _ Ha) as Hnd. intros Hx. rewrite Hx in Hl.
    destruct (a_dims a); [contradiction|discriminate]. }
  destruct (convert0 (e_me e) cb (iter_init (e_me e) (chunk_array (e_me e) b 0)) (chunk_array (e_me e) b 0) um ai a)
    as (di' & ai' & E & A & B); auto; try discriminate.
  { destruct (wb_dt _ _ _ _ HW). simpl. lia. }
  rewrite E. cbn [bind]. change (negb (0 =? 0)) with false. cbv iota.
  rewrite Hfel. change (Z.to_nat (0 * w)) with O. cbn [load or_ub bind].
  assert (Hcl := hl_cks _ _ HL). assert (Hcr := hl_cksr _ _ HL).
  rewrite (znth_nth (b_fchecksum b) (p_fileid p) 0) by (unfold zlen in *; lia). cbn [or_ub bind].
  rewrite zupd_some by (unfold zlen in *; lia). cbn [or_ub bind]. cbn [sysvsum fold_left].
  set (i := Z.to_nat (p_fileid p)) in *.
  set (b1 := set_checksums b _).
  assert (Hil : (i < length sizes)%nat) by (unfold i, zlen in *; lia).
  assert (HL1 : has_layout b1 sizes).
  { apply layout_set_cks; auto. rewrite upd_length. auto. apply upd_Forall; auto.
    unfold sysvsum. simpl. rewrite Forall_forall in Hcr. apply Hcr. apply nth_In. lia. }
  assert (Hpath : data_path (b_base b) (p_fileid p) = data_path (b_base b) (Z.of_nat i)) by (unfold i; f_equal; lia).
  rewrite Hpath. unfold fopen_rp.
  pose proof (Hfe i Hil) as Hx. unfold data_file in Hx.
  destruct (fs_get f (data_path (b_base b) (Z.of_nat i))) as [[|cont]|] eqn:Eg; try (exfalso; apply Hx; reflexivity).
  replace (p_roffset p * w <? 0) with false by nia.
  destruct (seek_rel_fwd b1 sizes p o 0 HL1 Hp ltac:(pose proof (pa_range _ _ _ Hp); lia)) as (p1 & -> & Hp1). cbn [bind].
  change (negb (0 =? 0)) with false. cbv iota.
  change (chunk_array (e_me e) b 0) with (chunk_array (e_me e) b1 0).
  apply (IH _ b1 p1 cb um ai' o); auto; try lia.
  - constructor; auto; apply HW.
  - rewrite Z.add_0_r in Hp1. auto.
  - intros j Hj. apply data_file_set_exists. apply Hfe; auto.
Qed.

Lemma write_stuck e sizes w a f b p um o n :
  wblock e b sizes w -> 0 <= e_chunk e < w -> w < 2 ^ 31 ->
  array_ok a -> dt_ok (e_me e) (a_dtype a) ->
  convertible (e_me e) (a_dtype a) (b_dtype b) ->
  n = a_size a / b_nmemb b -> 0 < n ->
  ptr_at sizes p o -> o + n <= zsum sizes -> files_exist f (b_base b) sizes ->
  forall fuel, big_block_write_fuel e f b p a um fuel = Diverge.
Proof.
  intros HW Hwc Hw31 Ha Hda Hconv Hn Hn0 Hp Ho Hfe fuel.
  assert (Hsz : 0 < a_size a) by (rewrite (ao_size _ Ha); apply zprod_pos; apply Ha).
  pose proof (wb_wpos _ _ _ _ HW) as Hwp. pose proof (wb_nmemb _ _ _ _ HW) as Hnm.
  unfold big_block_write_fuel. replace (a_size a =? 0) with false by lia.
  pose proof (wb_dirty _ _ _ _ true HW) as HW1. set (b1 := set_bdirty b true) in *.
  rewrite (wb_felsize _ _ _ _ HW1). replace (2 ^ 31 <=? Z.abs w) with false by lia.
  replace (w =? 0) with false by lia. cbv zeta.
  rewrite (chunk_array_init (e_me e) b1) by apply HW1. cbn [bind].
  rewrite (chunk_rows_spec _ _ _ _ HW1) by auto.
  pose proof (wb_layout _ _ _ _ HW1) as HL.
  rewrite (ptr_offset _ _ _ _ HL Hp). cbn [or_ub bind].
  rewrite (pa_abs _ _ _ Hp). rewrite row_nmemb_pos by apply Hnm.
  change (b_nmemb b1) with (b_nmemb b). rewrite <- Hn.
  pose proof (pa_range _ _ _ Hp). pose proof (hl_small _ _ HL).
  rewrite s64_id by lia. rewrite u64_id by lia. rewrite (hl_size _ _ HL).
  replace (zsum sizes <? o + n) with false by lia.
  rewrite Z.div_small by lia.
  eapply write_loop_stuck; eauto; try lia.
Qed.
