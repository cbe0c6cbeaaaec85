(* What put_rows does to the rows of a block, and to the checksums. *)
From Coq.Strings Require Import Byte String.
From Coq Require Import List ZArith Lia Bool ZifyBool ZifyNat.
From Verif Require Import Base BaseFacts Dtype Cast Array FS Fmt Block Spec SeekFacts FSFacts ArrayFacts ConvFacts WriteFacts ReadFacts.
Import ListNotations.
Open Scope Z_scope.
Ltac Zify.zify_post_hook ::= Z.div_mod_to_equations.

Definition zrow (w : Z) : bytes := repeat x00 (Z.to_nat w).

Lemma nth_repeat0 n k : nth k (repeat x00 n) x00 = x00.
Proof. revert k. induction n; intros [|k]; simpl; auto. Qed.

Lemma put_row_cases f base sizes w r v : Forall (fun s => 0 <= s) sizes -> v <> [] ->
  put_row f base sizes w r v = f \/
  exists i q c, home sizes r = Some (i, q) /\ data_file f base i = Some c /\
    put_row f base sizes w r v = fs_set f (data_path base (Z.of_nat i)) (File (pwrite c (Z.to_nat (q * w)) v)).
Proof.
  intros Hn Hv. destruct (home sizes r) as [[i q]|] eqn:Hh.
  - destruct (data_file f base i) as [c|] eqn:Hd.
    + right. exists i, q, c. split; auto. split; auto. apply put_row_pwrite; auto.
    + left. unfold put_row. rewrite Hh, Hd. auto.
  - left. unfold put_row. rewrite Hh. auto.
Qed.

Lemma put_row_whole f base sizes w r v : Forall (fun s => 0 <= s) sizes -> zlen sizes < 2 ^ 31 -> 0 < w ->
  length v = Z.to_nat w -> whole_rows f base sizes w -> whole_rows (put_row f base sizes w r v) base sizes w.
Proof.
  intros Hn Hcnt Hw Hl Hwh j d Hj Hd. assert (Hv : v <> []) by (intros ->; simpl in Hl; lia).
  destruct (put_row_cases f base sizes w r v Hn Hv) as [E|(i & q & c & Hh & Hc & E)]; rewrite E in Hd.
  { eauto. }
  apply home_spec in Hh; auto. unfold zlen in Hcnt.
  destruct (Nat.eq_dec j i) as [->|Hne].
  - rewrite data_file_set_same in Hd. injection Hd as <-. destruct (Hwh i c Hj Hc) as (k & Hk & Ek).
    exists (Z.max k (q + 1)). split; [lia|]. unfold zlen in *. rewrite pwrite_length by auto. nia.
  - rewrite data_file_set_other in Hd by lia. eauto.
Qed.

Lemma put_rows_whole base sizes w rows : forall f r, Forall (fun s => 0 <= s) sizes -> zlen sizes < 2 ^ 31 -> 0 < w ->
  Forall (fun v => length v = Z.to_nat w) rows -> whole_rows f base sizes w ->
  whole_rows (put_rows f base sizes w r rows) base sizes w.
Proof.
  induction rows; intros f r Hn Hc Hw Hl Hwh; simpl; auto. inversion Hl; subst. apply IHrows; auto.
  apply put_row_whole; auto.
Qed.

Lemma stored_put_zero f base sizes w r r' v u : Forall (fun s => 0 <= s) sizes -> zlen sizes < 2 ^ 31 -> 0 < w ->
  r <> r' -> length v = Z.to_nat w -> whole_rows f base sizes w -> stored_row f base sizes w r' = None ->
  stored_row (put_row f base sizes w r v) base sizes w r' = Some u ->
  u = zrow w /\ r' < r /\ same_file sizes r r'.
Proof.
  intros Hn Hcnt Hw Hr Hl Hwh Hs Hu. assert (Hv : v <> []) by (intros ->; simpl in Hl; lia).
  destruct (stored_put_new f base sizes w r r' v u Hn Hcnt Hw Hr Hl Hs Hu) as (Hlt & i & q & q' & Hh & Hh').
  split; [|split; auto; exists i, q, q'; auto].
  destruct (data_file f base i) as [c|] eqn:Hd.
  2:{ unfold put_row in Hu. rewrite Hh, Hd in Hu. congruence. }
  rewrite (put_row_pwrite _ _ _ _ _ _ i q c) in Hu by auto.
  unfold stored_row in *. rewrite Hh' in *. rewrite data_file_set_same in Hu. rewrite Hd in Hs.
  apply home_spec in Hh; auto. apply home_spec in Hh'; auto.
  destruct (Hwh i c ltac:(lia) Hd) as (k & Hk & Ek).
  destruct (Z.leb_spec ((q' + 1) * w) (zlen c)) as [|Hlen]; [discriminate|].
  destruct (Z.leb_spec ((q' + 1) * w) (zlen (pwrite c (Z.to_nat (q * w)) v))) as [Hlen2|]; [|discriminate].
  injection Hu as <-. apply bytes_ext.
  - unfold zrow. rewrite repeat_length, firstn_length, skipn_length. unfold zlen in Hlen2. nia.
  - intros n. unfold zrow. rewrite nth_repeat0. destruct (Nat.ltb_spec n (Z.to_nat w)).
    + rewrite nth_firstn', nth_skipn' by auto. rewrite nth_pwrite.
      assert (q' + 1 <= q) by nia.
      replace ((Z.to_nat (q * w) <=? Z.to_nat (q' * w) + n) && (Z.to_nat (q' * w) + n <? Z.to_nat (q * w) + length v))%nat with false.
      * apply nth_overflow. unfold zlen in *. assert (k < q' + 1) by (apply (Z.mul_lt_mono_pos_r w); lia). nia.
      * symmetry. apply andb_false_iff. left. nia.
    + apply nth_overflow. rewrite firstn_length. lia.
Qed.

Lemma stored_puts_zero base sizes w rows : forall f r r' u, Forall (fun s => 0 <= s) sizes -> zlen sizes < 2 ^ 31 -> 0 < w ->
  Forall (fun v => length v = Z.to_nat w) rows -> (r' < r \/ r + zlen rows <= r') ->
  whole_rows f base sizes w -> stored_row f base sizes w r' = None ->
  stored_row (put_rows f base sizes w r rows) base sizes w r' = Some u ->
  u = zrow w /\ exists r2, r <= r2 < r + zlen rows /\ r' < r2 /\ same_file sizes r2 r'.
Proof.
  induction rows as [|v rows IH]; intros f r r' u Hn Hc Hw Hl Hr Hwh Hs Hu; [simpl in Hu; congruence|].
  inversion Hl; subst. rewrite zlen_cons in *. pose proof (zlen_nonneg rows). simpl in Hu.
  destruct (stored_row (put_row f base sizes w r v) base sizes w r') as [u1|] eqn:E1.
  - pose proof (stored_puts_other base sizes w rows (put_row f base sizes w r v) (r + 1) r' u1 Hn Hc Hw H2 ltac:(lia) E1) as E2.
    rewrite E2 in Hu. injection Hu as <-.
    destruct (stored_put_zero f base sizes w r r' v u1) as (A & B & C); auto; try lia.
    split; auto. exists r. split; [lia|]. auto.
  - destruct (IH (put_row f base sizes w r v) (r + 1) r' u) as (A & r2 & B & C & D); auto; try lia.
    + apply put_row_whole; auto.
    + split; auto. exists r2. split; [lia|]. auto.
Qed.

(* rows in front of a stored row of the same file are stored *)
Lemma stored_before f base sizes w r r' u : Forall (fun s => 0 <= s) sizes -> 0 < w ->
  same_file sizes r r' -> r' <= r -> stored_row f base sizes w r = Some u ->
  exists u', stored_row f base sizes w r' = Some u'.
Proof.
  intros Hn Hw (i & q & q' & Hh & Hh') Hle Hs. unfold stored_row in *. rewrite Hh, Hh' in *.
  destruct (data_file f base i) as [c|]; [|discriminate].
  apply home_spec in Hh; auto. apply home_spec in Hh'; auto.
  destruct (Z.leb_spec ((q + 1) * w) (zlen c)); [|discriminate].
  replace ((q' + 1) * w <=? zlen c) with true by nia. eauto.
Qed.

Lemma stored_row_width f base sizes w r u : 0 < w -> Forall (fun s => 0 <= s) sizes -> stored_row f base sizes w r = Some u -> length u = Z.to_nat w.
Proof.
  intros Hw Hn. unfold stored_row. destruct (home sizes r) as [[i q]|] eqn:Hh; [|discriminate].
  destruct (data_file f base i) as [c|]; [|discriminate].
  destruct (Z.leb_spec ((q + 1) * w) (zlen c)); [|discriminate].
  intros E. injection E as <-. apply home_spec in Hh; auto. rewrite firstn_length, skipn_length. unfold zlen in *. nia.
Qed.

(* ------------------------------------------------------------- checksums *)
(* A row not holding data: not stored, or stored as zeros. *)
Definition blank_row (f : fs) (base : bytes) (sizes : list Z) (w r : Z) : Prop :=
  forall u, stored_row f base sizes w r = Some u -> u = zrow w.

Lemma byte_sum_zeros n : byte_sum (repeat x00 n) = 0.
Proof. unfold byte_sum. induction n; simpl; auto. Qed.

Lemma add_sum_nth cks sizes r v i : nth i (add_sum cks sizes r v) 0 =
  match home sizes r with
  | Some (j, _) => if Nat.eqb i j && (j <? length cks)%nat then (nth i cks 0 + byte_sum v) mod 2 ^ 32 else nth i cks 0
  | None => nth i cks 0
  end.
Proof.
  unfold add_sum. destruct (home sizes r) as [[j q]|]; auto.
  destruct (Nat.ltb_spec j (length cks)) as [H|H].
  - rewrite nth_upd by auto. destruct (Nat.eqb_spec i j); simpl.
    + subst. rewrite Nat.eqb_refl. auto.
    + destruct (Nat.eqb_spec j i); auto; congruence.
  - rewrite andb_false_r. f_equal. clear -H. revert cks H. induction j; intros [|x l] H; simpl in *; auto; try lia. f_equal. apply IHj. lia.
Qed.

Lemma sums_put_row f base sizes w r v cks : Forall (fun s => 0 <= s) sizes -> zlen sizes < 2 ^ 31 -> 0 < w ->
  (length sizes <= length cks)%nat ->
  length v = Z.to_nat w -> whole_rows f base sizes w -> files_exist f base sizes -> blank_row f base sizes w r ->
  sums_ok f base sizes cks -> sums_ok (put_row f base sizes w r v) base sizes (add_sum cks sizes r v).
Proof.
  intros Hn Hcnt Hw Hck Hl Hwh Hfe Hb Hs j d Hj Hd. assert (Hv : v <> []) by (intros ->; simpl in Hl; lia).
  rewrite add_sum_nth.
  destruct (home sizes r) as [[i q]|] eqn:Hh.
  2:{ unfold put_row in Hd. rewrite Hh in Hd. eauto. }
  pose proof Hh as Hh0. apply home_spec in Hh; auto. unfold zlen in Hcnt.
  destruct (data_file f base i) as [c|] eqn:Hc. 2:{ exfalso. eapply Hfe; [|eauto]. lia. }
  replace (i <? length cks)%nat with true by lia. rewrite andb_true_r.
  rewrite (put_row_pwrite _ _ _ _ _ _ i q c) in Hd by auto.
  destruct (Nat.eqb_spec j i) as [->|Hne].
  2:{ rewrite data_file_set_other in Hd by lia. eauto. }
  rewrite data_file_set_same in Hd. injection Hd as <-.
  rewrite (Hs i c) by auto. rewrite Zplus_mod_idemp_l. f_equal.
  destruct (Hwh i c ltac:(lia) Hc) as (k & Hk & Ek).
  unfold pwrite. destruct v as [|x v']; [contradiction|]. set (v := x :: v') in *.
  rewrite !byte_sum_app.
  unfold blank_row, stored_row in Hb. rewrite Hh0, Hc in Hb.
  destruct (Z.leb_spec ((q + 1) * w) (zlen c)) as [Hle|Hgt].
  - specialize (Hb _ eq_refl). unfold zlen in *.
    replace (Z.to_nat (q * w) - length c)%nat with 0%nat by nia. simpl repeat. rewrite app_nil_r.
    assert (E1 : byte_sum c = byte_sum (firstn (Z.to_nat (q * w)) c) + byte_sum (skipn (Z.to_nat (q * w)) c)).
    { rewrite <- byte_sum_app, firstn_skipn. reflexivity. }
    assert (E2 : byte_sum (skipn (Z.to_nat (q * w)) c) = byte_sum (firstn (Z.to_nat w) (skipn (Z.to_nat (q * w)) c))
      + byte_sum (skipn (Z.to_nat w) (skipn (Z.to_nat (q * w)) c))).
    { rewrite <- byte_sum_app, firstn_skipn. reflexivity. }
    rewrite Hb in E2. unfold zrow in E2. rewrite byte_sum_zeros in E2. rewrite Hl, skipn_add. lia.
  - unfold zlen in *. assert (k < q + 1) by (apply (Z.mul_lt_mono_pos_r w); lia).
    assert (Hlen : (length c <= Z.to_nat (q * w))%nat) by nia.
    rewrite firstn_all2 by (rewrite app_length, repeat_length; lia).
    rewrite byte_sum_app, byte_sum_zeros. rewrite skipn_all2 by lia. change (byte_sum []) with 0. lia.
Qed.

Lemma blank_put_row f base sizes w r r' v : Forall (fun s => 0 <= s) sizes -> zlen sizes < 2 ^ 31 -> 0 < w ->
  length v = Z.to_nat w -> whole_rows f base sizes w -> r <> r' -> blank_row f base sizes w r' ->
  blank_row (put_row f base sizes w r v) base sizes w r'.
Proof.
  intros Hn Hcnt Hw Hl Hwh Hr Hb u Hu.
  destruct (stored_row f base sizes w r') as [u1|] eqn:E.
  - rewrite (stored_put_other f base sizes w r r' v u1) in Hu by auto. injection Hu as <-. auto.
  - eapply stored_put_zero in Hu; eauto. apply Hu.
Qed.

Lemma blank_put_rows base sizes w rows : forall f r r', Forall (fun s => 0 <= s) sizes -> zlen sizes < 2 ^ 31 -> 0 < w ->
  Forall (fun v => length v = Z.to_nat w) rows -> whole_rows f base sizes w -> (r' < r \/ r + zlen rows <= r') ->
  blank_row f base sizes w r' -> blank_row (put_rows f base sizes w r rows) base sizes w r'.
Proof.
  intros f r r' Hn Hc Hw Hl Hwh Hr Hb u Hu.
  destruct (stored_row f base sizes w r') as [u1|] eqn:E.
  - rewrite (stored_puts_other base sizes w rows f r r' u1) in Hu by auto. injection Hu as <-. auto.
  - eapply stored_puts_zero in Hu; eauto. apply Hu.
Qed.

Lemma add_sum_length cks sizes r v : length (add_sum cks sizes r v) = length cks.
Proof. unfold add_sum. destruct (home sizes r) as [[i q]|]; auto. apply upd_length. Qed.

Lemma sums_put_rows base sizes w rows : forall f r cks, Forall (fun s => 0 <= s) sizes -> zlen sizes < 2 ^ 31 -> 0 < w ->
  (length sizes <= length cks)%nat ->
  Forall (fun v => length v = Z.to_nat w) rows -> whole_rows f base sizes w -> files_exist f base sizes ->
  (forall r', r <= r' < r + zlen rows -> blank_row f base sizes w r') ->
  sums_ok f base sizes cks -> sums_ok (put_rows f base sizes w r rows) base sizes (add_sums cks sizes r rows).
Proof.
  induction rows as [|v rows IH]; intros f r cks Hn Hc Hw Hck Hl Hwh Hfe Hb Hs; simpl; auto.
  inversion Hl; subst. rewrite zlen_cons in Hb. pose proof (zlen_nonneg rows).
  apply IH; auto.
  - rewrite add_sum_length. auto.
  - apply put_row_whole; auto.
  - apply put_row_files; auto.
  - intros r' Hr'. apply blank_put_row; auto; try lia. apply Hb. lia.
  - apply sums_put_row; auto. apply Hb. lia.
Qed.

Lemma sums_ok_ext f g base sizes cks : fs_eq f g -> sums_ok f base sizes cks -> sums_ok g base sizes cks.
Proof. intros H Hs i c Hi Hd. apply (Hs i c Hi). rewrite (data_file_ext f g); auto. Qed.
Lemma whole_ext f g base sizes w : fs_eq f g -> whole_rows f base sizes w -> whole_rows g base sizes w.
Proof. intros H Hs i c Hi Hd. apply (Hs i c Hi). rewrite (data_file_ext f g); auto. Qed.
Lemma files_ext f g base sizes : fs_eq f g -> files_exist f base sizes -> files_exist g base sizes.
Proof. intros H Hs i Hi. rewrite <- (data_file_ext f g); auto. Qed.
Lemma blank_ext f g base sizes w r : fs_eq f g -> blank_row f base sizes w r -> blank_row g base sizes w r.
Proof. intros H Hb u Hu. apply Hb. rewrite (stored_row_ext f g); auto. Qed.

(* ------------------------------------------------- values across machines *)
Lemma same_suffix_converts me sd dd v : suffix dd = suffix sd -> converts me sd dd v (reorder me dd (reorder me sd v)).
Proof. intros H. unfold converts, conv_elem. rewrite H, bytes_eqb_refl. reflexivity. Qed.

Lemma Forall2_map_r {A B} (P : A -> B -> Prop) (g : A -> B) l : Forall (fun x => P x (g x)) l -> Forall2 P l (map g l).
Proof. induction 1; simpl; constructor; auto. Qed.

(* ----------------------------------------------- read, unsupported types *)
Lemma read_unsupported e sizes w a f b p um o n :
  wblock e b sizes w -> w < 2 ^ 31 -> 0 <= e_chunk e ->
  array_ok a -> dt_ok (e_me e) (a_dtype a) ->
  ~ convertible (e_me e) (b_dtype b) (a_dtype a) ->
  n = a_size a / b_nmemb b -> 0 < n ->
  ptr_at sizes p o -> o + n <= zsum sizes ->
  big_block_read e f b p a um = Ret (-1, p, um).
Proof.
  intros HW Hw31 Hch Ha Hda Hconv Hn Hn0 Hp Ho.
  pose proof (wb_wpos _ _ _ _ HW) as Hwp. pose proof (wb_nmemb _ _ _ _ HW) as Hnm.
  pose proof (wb_felsize _ _ _ _ HW) as Hfel. pose proof (wb_dt _ _ _ _ HW) as Hdb.
  assert (Hisz : 0 < itemsize (e_me e) (b_dtype b)) by apply Hdb.
  unfold big_block_read.
  rewrite Hfel. replace (2 ^ 31 <=? Z.abs w) with false by lia.
  replace (w =? 0) with false by lia. cbv zeta.
  rewrite (chunk_array_init (e_me e) b) by apply HW. cbn [bind].
  rewrite (chunk_rows_spec _ _ _ _ HW) by auto.
  pose proof (wb_layout _ _ _ _ HW) as HL.
  rewrite (ptr_offset _ _ _ _ HL Hp). cbn [or_ub bind].
  rewrite (pa_abs _ _ _ Hp). rewrite row_nmemb_pos by apply Hnm. rewrite <- Hn.
  pose proof (pa_range _ _ _ Hp). pose proof (hl_small _ _ HL).
  rewrite s64_id by lia. rewrite u64_id by lia. rewrite (hl_size _ _ HL).
  replace (zsum sizes <? o + n) with false by lia.
  set (cs := e_chunk e / w). assert (Hcs : 0 <= cs) by (apply Z.div_pos; lia).
  assert (Hcb : buf_mapped (chunk_mem e) (cs * w)).
  { apply chunk_mem_mapped. unfold cs. rewrite Z.mul_comm. apply Z.mul_div_le. lia. }
  cbn [read_loop]. replace (0 <? n) with true by lia. cbn [negb].
  rewrite (eof_spec _ _ _ _ HL Hp). cbn [bind]. replace (o =? zsum sizes) with false by lia.
  destruct (next_chunk_spec b sizes p o cs n HL Hp ltac:(lia) ltac:(lia) ltac:(lia)) as (c & -> & Hc). cbn [bind].
  destruct (ptr_in _ _ _ _ HL Hp ltac:(lia)) as (Pf & Pr & Ph).
  destruct (Z.eqb_spec c 0); auto.
  assert (Hcs0 : 0 < cs) by lia.
  destruct (fopen_r f (data_path (b_base b) (p_fileid p))) as [oc|]; auto.
  rewrite Hfel. replace (p_roffset p * w <? 0) with false by nia.
  set (l := match oc with Some cont => pread cont (Z.to_nat (p_roffset p * w)) (Z.to_nat (c * w)) | None => [] end).
  assert (Hl : (length l <= Z.to_nat (c * w))%nat).
  { unfold l, pread. destruct oc; [rewrite firstn_length|simpl]; lia. }
  destruct (store_some l (chunk_mem e) 0) as [cb1 Ecb].
  { intros y Hy. apply Hcb. nia. }
  rewrite Ecb. cbn [or_ub bind].
  destruct (Nat.eqb_spec (length l) (Z.to_nat (c * w))) as [Hll|]; auto. cbn [negb].
  set (isz := itemsize (e_me e) (b_dtype b)) in *.
  set (es := group (Z.to_nat isz) (Z.to_nat (c * b_nmemb b)) l).
  assert (Hcw : Z.to_nat (c * w) = (Z.to_nat (c * b_nmemb b) * Z.to_nat isz)%nat).
  { rewrite (wb_w _ _ _ _ HW). fold isz. nia. }
  assert (Hes : zlen es = c * b_nmemb b) by (unfold zlen, es; rewrite group_length; nia).
  assert (Hcat : concat es = l) by (apply group_concat; lia).
  assert (Hwe : Forall (fun v => length v = Z.to_nat isz) es) by (apply group_lengths; lia).
  set (ca := chunk_array (e_me e) b cs).
  assert (Hca : array_ok ca) by (apply chunk_array_ok; lia).
  destruct (concat_store (elem_addr ca) isz 0 es (chunk_mem e) 0) as (cb2 & Es & Ws); auto; try lia.
  { intros j Hj. unfold ca, isz. rewrite chunk_addr by nia. lia. }
  { apply chunk_mapped; auto; try nia. rewrite <- (wb_w _ _ _ _ HW). auto. }
  change (0 + 0 * isz) with 0 in Es. rewrite Hcat, Ecb in Es. injection Es as <-.
  destruct (convert_unsupported (e_me e) um (iter_init (e_me e) a) a cb1 (iter_init (e_me e) ca) ca 0 0 es)
    as (cb3 & E & _); auto; try lia.
  - apply iter_init_at; auto.
  - apply iter_init_at; auto.
  - change (a_size ca) with (cs * b_nmemb b). nia.
  - exact (proj1 Ws).
  - intros _. apply chunk_disjoint; auto. nia.
  - replace (length es) with (Z.to_nat (c * b_nmemb b)) in E by (unfold zlen in Hes; lia).
    rewrite E. cbn [bind]. reflexivity.
Qed.
