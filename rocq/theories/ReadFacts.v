(* Proofs about big_block_read, and reading back what was written. *)
From Coq.Strings Require Import Byte String.
From Coq Require Import List ZArith Lia Bool ZifyBool ZifyNat.
From Verif Require Import Base BaseFacts Dtype Cast Array FS Fmt Block Spec SeekFacts FSFacts ArrayFacts ConvFacts WriteFacts.
Import ListNotations.
Open Scope Z_scope.
Ltac Zify.zify_post_hook ::= Z.div_mod_to_equations.

Lemma firstn_add {A} (l : list A) : forall a b, firstn (a + b) l = firstn a l ++ firstn b (skipn a l).
Proof.
  induction l as [|x l IH]; intros [|a] b; simpl; auto.
  - rewrite firstn_nil. auto.
  - f_equal. apply IH.
Qed.

Lemma skipn_add {A} : forall p a (l : list A), skipn (p + a) l = skipn a (skipn p l).
Proof.
  induction p as [|p IH]; intros a l; simpl; auto. destruct l; [rewrite skipn_nil; auto|]. apply IH.
Qed.

Lemma firstn_skipn_app {A} (l : list A) a b p : firstn (a + b) (skipn p l)
  = firstn a (skipn p l) ++ firstn b (skipn (p + a) l).
Proof. rewrite firstn_add, skipn_add. reflexivity. Qed.

Lemma stored_row_some f base sizes w r i q c v : home sizes r = Some (i, q) ->
  data_file f base i = Some c -> stored_row f base sizes w r = Some v ->
  (q + 1) * w <= zlen c /\ v = firstn (Z.to_nat w) (skipn (Z.to_nat (q * w)) c).
Proof.
  intros Hh Hd. unfold stored_row. rewrite Hh, Hd.
  destruct ((q + 1) * w <=? zlen c) eqn:E; [|discriminate]. intros H. injection H as <-. split; auto. lia.
Qed.

Lemma stored_chunk f base sizes w rows : forall r i q c,
  Forall (fun s => 0 <= s) sizes -> 0 < w -> 0 <= q ->
  home sizes r = Some (i, q) -> q + zlen rows <= nth i sizes 0 ->
  data_file f base i = Some c ->
  (forall j v, nth_error rows j = Some v -> stored_row f base sizes w (r + Z.of_nat j) = Some v) ->
  firstn (Z.to_nat (zlen rows * w)) (skipn (Z.to_nat (q * w)) c) = concat rows /\
  (rows <> [] -> (q + zlen rows) * w <= zlen c).
Proof.
  induction rows as [|v rows IH]; intros r i q c Hn Hw Hq Hh Hq2 Hd Hs.
  - split; auto. contradiction.
  - rewrite zlen_cons in *. pose proof (zlen_nonneg rows).
    pose proof (Hs O v eq_refl) as H0. simpl in H0. rewrite Z.add_0_r in H0.
    destruct (stored_row_some _ _ _ _ _ _ _ _ _ Hh Hd H0) as [HA HB].
    replace (Z.to_nat ((1 + zlen rows) * w)) with (Z.to_nat w + Z.to_nat (zlen rows * w))%nat by nia.
    rewrite firstn_skipn_app. rewrite <- HB.
    replace (Z.to_nat (q * w) + Z.to_nat w)%nat with (Z.to_nat ((q + 1) * w)) by nia.
    destruct rows as [|v' rows].
    + split; [simpl; f_equal|]. intros _. unfold zlen at 1. simpl. lia.
    + destruct (IH (r + 1) i (q + 1) c) as [E1 E2]; auto; try lia.
      * apply home_next; auto. rewrite zlen_cons in *. pose proof (zlen_nonneg rows). lia.
      * intros j x Hx. specialize (Hs (S j) x Hx). rewrite <- Hs. f_equal. lia.
      * rewrite E1. split; auto. intros _. specialize (E2 ltac:(discriminate)). nia.
Qed.

(* one chunk of the read loop *)
Lemma read_step e sizes w a cs : array_ok a -> dt_ok (e_me e) (a_dtype a) -> 0 < cs ->
  forall n f b p cb um ai o k c cont es outs fuel,
  wblock e b sizes w ->
  convertible (e_me e) (b_dtype b) (a_dtype a) ->
  buf_mapped cb (cs * w) ->
  iter_at (e_me e) ai a k -> 0 <= k -> k + zlen es <= a_size a ->
  0 < n -> ptr_at sizes p o -> o + n <= zsum sizes ->
  c = Z.min (Z.min cs (nth (Z.to_nat (p_fileid p)) sizes 0 - p_roffset p)) n ->
  data_file f (b_base b) (Z.to_nat (p_fileid p)) = Some cont ->
  zlen es = c * b_nmemb b -> Forall (fun v => length v = Z.to_nat (itemsize (e_me e) (b_dtype b))) es ->
  firstn (Z.to_nat (c * w)) (skipn (Z.to_nat (p_roffset p * w)) cont) = concat es ->
  Forall2 (converts (e_me e) (b_dtype b) (a_dtype a)) es outs ->
  mapped um (elem_addr a) (itemsize (e_me e) (a_dtype a)) k (zlen es) ->
  elems_disjoint (elem_addr a) (itemsize (e_me e) (a_dtype a)) k (zlen es) ->
  exists p1 cb1 um1 ai1,
    read_loop e f b p cb (chunk_array (e_me e) b cs) um ai cs n (S fuel)
    = read_loop e f b p1 cb1 (chunk_array (e_me e) b cs) um1 ai1 cs (n - c) fuel /\
    buf_mapped cb1 (cs * w) /\ iter_at (e_me e) ai1 a (k + zlen es) /\
    ptr_at sizes p1 (o + c) /\
    wrote um um1 (elem_addr a) (itemsize (e_me e) (a_dtype a)) k outs.
Proof.
  intros Ha Hda Hcs n f b p cb um ai o k c cont es outs fuel HW Hconv Hcb Hi Hk0 Hk Hn Hp Ho Hc Hcont Hle Hwe Hcat Hf Hm Hd.
  pose proof (wb_layout _ _ _ _ HW) as HL. pose proof (wb_felsize _ _ _ _ HW) as Hfel.
  pose proof (wb_nmemb _ _ _ _ HW) as Hnm. pose proof (wb_dt _ _ _ _ HW) as Hdb.
  assert (Hisz : 0 < itemsize (e_me e) (b_dtype b)) by apply Hdb.
  assert (Hw : 0 < w) by (eapply wb_wpos; eauto).
  pose proof (pa_range _ _ _ Hp) as Hor.
  cbn [read_loop]. replace (0 <? n) with true by lia. cbn [negb].
  rewrite (eof_spec _ _ _ _ HL Hp). cbn [bind]. replace (o =? zsum sizes) with false by lia.
  destruct (next_chunk_spec b sizes p o cs n HL Hp ltac:(lia) ltac:(lia) Hn) as (c' & -> & Hc'). cbn [bind].
  rewrite <- Hc in Hc'. subst c'.
  destruct (ptr_in _ _ _ _ HL Hp ltac:(lia)) as (Pf & Pr & Ph).
  set (i := Z.to_nat (p_fileid p)) in *.
  assert (Hc1 : 1 <= c <= cs /\ c <= n /\ p_roffset p + c <= nth i sizes 0) by lia.
  replace (c =? 0) with false by lia.
  assert (Hpath : data_path (b_base b) (p_fileid p) = data_path (b_base b) (Z.of_nat i)) by (unfold i; f_equal; lia).
  rewrite Hpath. unfold fopen_r, data_file in *.
  destruct (fs_get f (data_path (b_base b) (Z.of_nat i))) as [[|cont']|] eqn:Eg; try discriminate. injection Hcont as ->.
  rewrite Hfel. replace (p_roffset p * w <? 0) with false by nia.
  unfold pread. rewrite Hcat.
  assert (Hlc : length (concat es) = Z.to_nat (c * w)).
  { rewrite (concat_length_w es _ Hwe). unfold zlen in Hle. rewrite (wb_w _ _ _ _ HW). nia. }
  set (ca := chunk_array (e_me e) b cs).
  assert (Hca : array_ok ca) by (apply chunk_array_ok; lia).
  destruct (concat_store (elem_addr ca) (itemsize (e_me e) (b_dtype b)) 0 es cb 0) as (cb1 & Es & Ws); auto; try lia.
  { intros j Hj. unfold ca. rewrite chunk_addr by nia. lia. }
  { apply chunk_mapped; auto; try nia. rewrite <- (wb_w _ _ _ _ HW). auto. }
  change (0 + 0 * itemsize (e_me e) (b_dtype b)) with 0 in Es. rewrite Es. cbn [or_ub bind].
  rewrite Hlc, Nat.eqb_refl. cbn [negb].
  assert (Hml : Z.to_nat (c * b_nmemb b) = length es) by (unfold zlen in Hle; lia).
  rewrite Hml.
  destruct (convert_spec (e_me e) um ai a cb1 (iter_init (e_me e) ca) ca k 0 es outs)
    as (um1 & ai1 & cb2 & si' & E1 & Hai1 & _ & Hwr & Hsrc); auto; try lia.
  { apply iter_init_at; auto. }
  { change (a_size ca) with (cs * b_nmemb b). nia. }
  { exact (proj1 Ws). }
  { intros _. apply chunk_disjoint; auto. nia. }
  rewrite E1. cbn [bind]. change (negb (0 =? 0)) with false. cbv iota.
  destruct (seek_rel_fwd b sizes p o c HL Hp ltac:(lia)) as (p1 & -> & Hp1). cbn [bind].
  change (negb (0 =? 0)) with false. cbv iota.
  exists p1, cb2, um1, ai1. split; [reflexivity|]. split; [|auto].
  assert (B1 : buf_mapped cb1 (cs * w)).
  { intros x Hx Hc0. apply (proj2 (store_domain _ _ _ _ Es x)) in Hc0. apply (Hcb x); auto. }
  unfold src_after in Hsrc. destruct (dt_native (e_me e) (a_dtype ca)); [rewrite Hsrc; exact B1|].
  intros x Hx Hc0.
  assert (Hz : zlen (map (@rev byte) es) = zlen es) by (unfold zlen; rewrite map_length; auto).
  rewrite (wrote_domain cb1 cb2 (elem_addr ca) (itemsize (e_me e) (b_dtype b)) 0 (map (@rev byte) es)) in Hc0; auto; try lia.
  + apply (B1 x); auto.
  + rewrite Hz. apply chunk_mapped; auto; try nia. rewrite <- (wb_w _ _ _ _ HW). auto.
Qed.

Lemma mapped_sub m addr w k n k' n' : mapped m addr w k n -> k <= k' -> k' + n' <= k + n -> mapped m addr w k' n'.
Proof. intros H Hk Hn x (j & Hj & Hx). apply H. exists j. lia. Qed.

Lemma disjoint_sub addr w k n k' n' : elems_disjoint addr w k n -> k <= k' -> k' + n' <= k + n -> elems_disjoint addr w k' n'.
Proof. intros H Hk Hn i j Hi Hj. apply H; lia. Qed.

Lemma wrote_mapped m m' addr w k vs k' n' : 0 <= w -> mapped m addr w k (zlen vs) ->
  wrote m m' addr w k vs -> mapped m addr w k' n' -> mapped m' addr w k' n'.
Proof.
  intros Hw Hm Hwr Hm' x Hx Hc. rewrite (wrote_domain m m' addr w k vs Hw Hm Hwr) in Hc. apply (Hm' x Hx Hc).
Qed.

(* rows of a prefix *)
Lemma rows_split nm n c es : 0 <= c <= n -> 0 <= nm -> zlen es = n * nm ->
  exists es1 es2, es = es1 ++ es2 /\ zlen es1 = c * nm /\ zlen es2 = (n - c) * nm /\
    rows_of nm n es = rows_of nm c es1 ++ rows_of nm (n - c) es2.
Proof.
  intros Hc Hnm Hl. exists (firstn (Z.to_nat (c * nm)) es), (skipn (Z.to_nat (c * nm)) es).
  assert (L1 : zlen (firstn (Z.to_nat (c * nm)) es) = c * nm).
  { unfold zlen in *. rewrite firstn_length. nia. }
  assert (L2 : zlen (skipn (Z.to_nat (c * nm)) es) = (n - c) * nm).
  { unfold zlen in *. rewrite skipn_length. nia. }
  split; [symmetry; apply firstn_skipn|]. split; auto. split; auto.
  rewrite <- rows_of_app by lia. rewrite firstn_skipn. f_equal. lia.
Qed.

Lemma read_loop_spec e sizes w a cs : array_ok a -> dt_ok (e_me e) (a_dtype a) -> 0 < cs ->
  forall fuel n f b p cb um ai o k es outs,
  wblock e b sizes w ->
  convertible (e_me e) (b_dtype b) (a_dtype a) ->
  buf_mapped cb (cs * w) ->
  iter_at (e_me e) ai a k -> 0 <= k -> k + zlen es <= a_size a ->
  0 <= n -> zlen es = n * b_nmemb b ->
  Forall (fun v => length v = Z.to_nat (itemsize (e_me e) (b_dtype b))) es ->
  (forall j v, nth_error (rows_of (b_nmemb b) n es) j = Some v ->
     stored_row f (b_base b) sizes w (o + Z.of_nat j) = Some v) ->
  Forall2 (converts (e_me e) (b_dtype b) (a_dtype a)) es outs ->
  mapped um (elem_addr a) (itemsize (e_me e) (a_dtype a)) k (zlen es) ->
  elems_disjoint (elem_addr a) (itemsize (e_me e) (a_dtype a)) k (zlen es) ->
  ptr_at sizes p o -> o + n <= zsum sizes -> n < Z.of_nat fuel ->
  exists p' um',
    read_loop e f b p cb (chunk_array (e_me e) b cs) um ai cs n fuel = Ret (0, p', um') /\
    ptr_at sizes p' (o + n) /\
    wrote um um' (elem_addr a) (itemsize (e_me e) (a_dtype a)) k outs.
Proof.
  intros Ha Hda Hcs. induction fuel as [|fuel IH];
    intros n f b p cb um ai o k es outs HW Hconv Hcb Hi Hk0 Hk Hn Hlen Hwid Hst Hf Hm Hd Hp Ho Hfuel; [lia|].
  pose proof (wb_layout _ _ _ _ HW) as HL. pose proof (wb_nmemb _ _ _ _ HW) as Hnm.
  assert (Hw : 0 < w) by (eapply wb_wpos; eauto).
  assert (Hisa : 0 < itemsize (e_me e) (a_dtype a)) by apply Hda.
  pose proof (pa_range _ _ _ Hp) as Hor.
  destruct (Z.eq_dec n 0) as [->|Hn0].
  { assert (es = []) by (destruct es; auto; rewrite zlen_cons in Hlen; pose proof (zlen_nonneg es); lia).
    subst es. inversion Hf; subst. exists p, um. rewrite Z.add_0_r. split; [reflexivity|]. split; auto. apply wrote_nil. }
  destruct (ptr_in _ _ _ _ HL Hp ltac:(lia)) as (Pf & Pr & Ph).
  set (i := Z.to_nat (p_fileid p)) in *.
  set (c := Z.min (Z.min cs (nth i sizes 0 - p_roffset p)) n).
  assert (Hc1 : 1 <= c <= cs /\ c <= n /\ p_roffset p + c <= nth i sizes 0) by lia.
  destruct (rows_split (b_nmemb b) n c es ltac:(lia) ltac:(lia) Hlen) as (es1 & es2 & -> & L1 & L2 & HR).
  rewrite zlen_app in *. pose proof (zlen_nonneg es1). pose proof (zlen_nonneg es2).
  apply Forall2_app_split in Hf. destruct Hf as (outs1 & outs2 & -> & Hf1 & Hf2).
  apply Forall_app in Hwid. destruct Hwid as [Hw1 Hw2].
  assert (Hzr : zlen (rows_of (b_nmemb b) c es1) = c) by (unfold zlen; rewrite rows_of_length; lia).
  assert (Hst1 : forall j v, nth_error (rows_of (b_nmemb b) c es1) j = Some v ->
     stored_row f (b_base b) sizes w (o + Z.of_nat j) = Some v).
  { intros j v Hj. apply Hst. rewrite HR. rewrite nth_error_app1; auto. apply nth_error_Some. congruence. }
  assert (Hcont : exists cont, data_file f (b_base b) i = Some cont).
  { destruct (rows_of (b_nmemb b) c es1) as [|v r] eqn:Er; [unfold zlen in Hzr; simpl in Hzr; lia|].
    specialize (Hst1 O v eq_refl). simpl in Hst1. rewrite Z.add_0_r in Hst1. unfold stored_row in Hst1.
    rewrite Ph in Hst1. destruct (data_file f (b_base b) i) as [c0|]; [exists c0; reflexivity|discriminate]. }
  destruct Hcont as [cont Hcont].
  destruct (stored_chunk f (b_base b) sizes w (rows_of (b_nmemb b) c es1) o i (p_roffset p) cont) as [Hcat _]; auto; try lia.
  { apply HL. }
  rewrite Hzr, rows_of_concat in Hcat by lia.
  destruct (read_step e sizes w a cs Ha Hda Hcs n f b p cb um ai o k c cont es1 outs1 fuel)
    as (p1 & cb1 & um1 & ai1 & -> & B1 & I1 & P1 & W1); auto; try lia.
  { eapply mapped_sub; eauto; lia. }
  { eapply disjoint_sub; eauto; lia. }
  pose proof (Forall2_length Hf1) as Hlo1. assert (Hzo : zlen outs1 = zlen es1) by (unfold zlen; lia).
  pose proof (Forall2_length Hf2) as Hlo2. assert (Hzo2 : zlen outs2 = zlen es2) by (unfold zlen; lia).
  destruct (IH (n - c) f b p1 cb1 um1 ai1 (o + c) (k + zlen es1) es2 outs2)
    as (p' & um' & E & P & W); auto; try lia.
  { intros j v Hj. specialize (Hst (Z.to_nat c + j)%nat v). rewrite HR in Hst.
    rewrite nth_error_app2 in Hst by (rewrite rows_of_length; lia). rewrite rows_of_length in Hst.
    replace (Z.to_nat c + j - Z.to_nat c)%nat with j in Hst by lia. rewrite <- Hst by auto. f_equal. lia. }
  { eapply wrote_mapped with (k := k) (vs := outs1); eauto; try lia.
    - rewrite Hzo. eapply mapped_sub; eauto; lia.
    - eapply mapped_sub; eauto; lia. }
  { eapply disjoint_sub; eauto; lia. }
  exists p', um'. split; auto. split.
  - replace (o + n) with (o + c + (n - c)) by lia. auto.
  - eapply wrote_app; eauto; try lia.
    + rewrite Hzo. auto.
    + rewrite Hzo, Hzo2. auto.
Qed.

Lemma read_spec e sizes w a f b p um o es outs n :
  wblock e b sizes w -> w <= e_chunk e -> w < 2 ^ 31 ->
  array_ok a -> dt_ok (e_me e) (a_dtype a) ->
  convertible (e_me e) (b_dtype b) (a_dtype a) ->
  n = a_size a / b_nmemb b -> zlen es = n * b_nmemb b ->
  Forall (fun v => length v = Z.to_nat (itemsize (e_me e) (b_dtype b))) es ->
  (forall j v, nth_error (rows_of (b_nmemb b) n es) j = Some v ->
     stored_row f (b_base b) sizes w (o + Z.of_nat j) = Some v) ->
  Forall2 (converts (e_me e) (b_dtype b) (a_dtype a)) es outs ->
  mapped um (elem_addr a) (itemsize (e_me e) (a_dtype a)) 0 (zlen es) ->
  elems_disjoint (elem_addr a) (itemsize (e_me e) (a_dtype a)) 0 (zlen es) ->
  ptr_at sizes p o -> o + n <= zsum sizes ->
  exists p' um',
    big_block_read e f b p a um = Ret (0, p', um') /\
    ptr_at sizes p' (o + n) /\
    wrote um um' (elem_addr a) (itemsize (e_me e) (a_dtype a)) 0 outs.
Proof.
  intros HW Hwc Hw31 Ha Hda Hconv Hn Hlen Hwid Hst Hf Hm Hd Hp Ho.
  assert (Hsz : 0 < a_size a) by (rewrite (ao_size _ Ha); apply zprod_pos; apply Ha).
  pose proof (wb_wpos _ _ _ _ HW) as Hwp. pose proof (wb_nmemb _ _ _ _ HW) as Hnm.
  unfold big_block_read.
  rewrite (wb_felsize _ _ _ _ HW). replace (2 ^ 31 <=? Z.abs w) with false by lia.
  replace (w =? 0) with false by lia. cbv zeta.
  rewrite (chunk_array_init (e_me e) b) by apply HW. cbn [bind].
  rewrite (chunk_rows_spec _ _ _ _ HW) by auto.
  pose proof (wb_layout _ _ _ _ HW) as HL.
  rewrite (ptr_offset _ _ _ _ HL Hp). cbn [or_ub bind].
  rewrite (pa_abs _ _ _ Hp). rewrite row_nmemb_pos by apply Hnm. rewrite <- Hn.
  assert (Hn0 : 0 <= n) by (subst n; apply Z.div_pos; lia).
  pose proof (pa_range _ _ _ Hp). pose proof (hl_small _ _ HL).
  rewrite s64_id by lia. rewrite u64_id by lia. rewrite (hl_size _ _ HL).
  replace (zsum sizes <? o + n) with false by lia.
  destruct (read_loop_spec e sizes w a (e_chunk e / w) Ha Hda ltac:(apply Z.div_str_pos; lia)
     (S (Z.to_nat n)) n f b p (chunk_mem e) um (iter_init (e_me e) a) o 0 es outs)
    as (p' & um' & E & P & W); auto; try lia.
  - apply chunk_mem_mapped. rewrite Z.mul_comm. apply Z.mul_div_le. lia.
  - apply iter_init_at; auto.
  - rewrite E. exists p', um'. auto.
Qed.

Lemma read_range e sizes w a f b p um o :
  wblock e b sizes w -> w < 2 ^ 31 ->
  ptr_at sizes p o -> zsum sizes < o + a_size a / b_nmemb b -> o + a_size a / b_nmemb b < 2 ^ 64 ->
  big_block_read e f b p a um = Ret (-1, p, um).
Proof.
  intros HW Hw31 Hp Ho Hmax.
  pose proof (wb_wpos _ _ _ _ HW) as Hwp. pose proof (wb_nmemb _ _ _ _ HW) as Hnm.
  unfold big_block_read.
  rewrite (wb_felsize _ _ _ _ HW). replace (2 ^ 31 <=? Z.abs w) with false by lia.
  replace (w =? 0) with false by lia. cbv zeta.
  rewrite (chunk_array_init (e_me e) b) by apply HW. cbn [bind].
  pose proof (wb_layout _ _ _ _ HW) as HL.
  rewrite (ptr_offset _ _ _ _ HL Hp). cbn [or_ub bind].
  rewrite (pa_abs _ _ _ Hp). rewrite row_nmemb_pos by apply Hnm.
  rewrite u64_s64, u64_id, (hl_size _ _ HL).
  2:{ pose proof (zsum_range _ _ HL). lia. }
  replace (zsum sizes <? o + a_size a / b_nmemb b) with true by lia. reflexivity.
Qed.

(* ------------------------------------------------------ unavailable rows *)
(* Every value of the source type converts (true of all pairs but float to
   integer). *)
Definition total_conv (me : endian) (sd dd : bytes) : Prop :=
  forall v, length v = Z.to_nat (itemsize me sd) -> exists r, converts me sd dd v r.

Lemma total_convertible me sd dd : total_conv me sd dd -> convertible me sd dd.
Proof.
  intros H. destruct (H (repeat x00 (Z.to_nat (itemsize me sd))) (repeat_length _ _)) as [r Hr].
  unfold converts, conv_elem in Hr. unfold convertible.
  destruct (bytes_eqb (suffix dd) (suffix sd)) eqn:E.
  - left. apply bytes_eqb_eq. auto.
  - right. destruct (cast_table me (suffix dd) (suffix sd)); congruence.
Qed.

Lemma total_outs me sd dd es : total_conv me sd dd ->
  Forall (fun v => length v = Z.to_nat (itemsize me sd)) es ->
  exists outs, Forall2 (converts me sd dd) es outs.
Proof.
  intros H HF. induction HF.
  - exists []. constructor.
  - destruct IHHF as [outs Ho]. destruct (H _ H0) as [r Hr]. exists (r :: outs). constructor; auto.
Qed.

Lemma read_loop_missing e sizes w a cs : array_ok a -> dt_ok (e_me e) (a_dtype a) -> 0 < cs ->
  forall fuel n f b p cb um ai o k,
  wblock e b sizes w ->
  total_conv (e_me e) (b_dtype b) (a_dtype a) ->
  buf_mapped cb (cs * w) ->
  iter_at (e_me e) ai a k -> 0 <= k -> k + n * b_nmemb b <= a_size a ->
  (exists j, 0 <= j < n /\ stored_row f (b_base b) sizes w (o + j) = None) ->
  mapped um (elem_addr a) (itemsize (e_me e) (a_dtype a)) k (n * b_nmemb b) ->
  elems_disjoint (elem_addr a) (itemsize (e_me e) (a_dtype a)) k (n * b_nmemb b) ->
  ptr_at sizes p o -> o + n <= zsum sizes -> n < Z.of_nat fuel ->
  exists p' um',
    read_loop e f b p cb (chunk_array (e_me e) b cs) um ai cs n fuel = Ret (-1, p', um') /\
    (forall x, ~ in_elems (elem_addr a) (itemsize (e_me e) (a_dtype a)) k (n * b_nmemb b) x -> um' x = um x) /\
    (forall x, um' x = None <-> um x = None).
Proof.
  intros Ha Hda Hcs. induction fuel as [|fuel IH];
    intros n f b p cb um ai o k HW Htot Hcb Hi Hk0 Hk Hmiss Hm Hd Hp Ho Hfuel; [destruct Hmiss as (j & Hj & _); lia|].
  pose proof (wb_layout _ _ _ _ HW) as HL. pose proof (wb_nmemb _ _ _ _ HW) as Hnm.
  pose proof (wb_felsize _ _ _ _ HW) as Hfel.
  assert (Hw : 0 < w) by (eapply wb_wpos; eauto).
  assert (Hisa : 0 < itemsize (e_me e) (a_dtype a)) by apply Hda.
  assert (Hisz : 0 < itemsize (e_me e) (b_dtype b)) by apply HW.
  pose proof (pa_range _ _ _ Hp) as Hor.
  destruct Hmiss as (j & Hj & Hmiss).
  destruct (ptr_in _ _ _ _ HL Hp ltac:(lia)) as (Pf & Pr & Ph).
  set (i := Z.to_nat (p_fileid p)) in *.
  set (c := Z.min (Z.min cs (nth i sizes 0 - p_roffset p)) n).
  assert (Hc1 : 1 <= c <= cs /\ c <= n /\ p_roffset p + c <= nth i sizes 0) by lia.
  assert (Hpath : data_path (b_base b) (p_fileid p) = data_path (b_base b) (Z.of_nat i)) by (unfold i; f_equal; lia).
  destruct (match data_file f (b_base b) i with Some cont => (p_roffset p + c) * w <=? zlen cont | None => false end) eqn:Eav.
  - destruct (data_file f (b_base b) i) as [cont|] eqn:Ec; [|discriminate].
    (* the chunk is available *)
    set (l := firstn (Z.to_nat (c * w)) (skipn (Z.to_nat (p_roffset p * w)) cont)).
    assert (Hll : length l = Z.to_nat (c * w)).
    { unfold l. rewrite firstn_length, skipn_length. unfold zlen in Eav. nia. }
    set (isz := itemsize (e_me e) (b_dtype b)) in *.
    set (es := group (Z.to_nat isz) (Z.to_nat (c * b_nmemb b)) l).
    assert (Hcw : Z.to_nat (c * w) = (Z.to_nat (c * b_nmemb b) * Z.to_nat isz)%nat).
    { rewrite (wb_w _ _ _ _ HW). fold isz. nia. }
    assert (Hes : zlen es = c * b_nmemb b) by (unfold zlen, es; rewrite group_length; nia).
    assert (Hcat : concat es = l) by (apply group_concat; lia).
    assert (Hwe : Forall (fun v => length v = Z.to_nat isz) es) by (apply group_lengths; lia).
    destruct (total_outs _ _ _ es Htot Hwe) as [outs Hf].
    destruct (read_step e sizes w a cs Ha Hda Hcs n f b p cb um ai o k c cont es outs fuel)
      as (p1 & cb1 & um1 & ai1 & -> & B1 & I1 & P1 & W1); auto; try lia; try nia.
    { apply total_convertible; auto. }
    { eapply mapped_sub; eauto; nia. }
    { eapply disjoint_sub; eauto; nia. }
    pose proof (Forall2_length Hf) as Hlo. assert (Hzo : zlen outs = zlen es) by (unfold zlen; lia).
    destruct (IH (n - c) f b p1 cb1 um1 ai1 (o + c) (k + zlen es)) as (p' & um' & E & F & G); auto; try nia.
    { exists (j - c). replace (o + c + (j - c)) with (o + j) by lia. split; auto.
      destruct (Z_lt_le_dec j c); [|lia]. exfalso.
      pose proof (home_next sizes o i (p_roffset p) (hl_nonneg _ _ HL) Ph j ltac:(lia)) as Hh.
      unfold stored_row in Hmiss. rewrite Hh, Ec in Hmiss.
      replace ((p_roffset p + j + 1) * w <=? zlen cont) with true in Hmiss by nia. discriminate. }
    { eapply wrote_mapped with (k := k) (vs := outs); eauto; try lia.
      - rewrite Hzo. eapply mapped_sub; eauto; nia.
      - eapply mapped_sub; eauto; nia. }
    { eapply disjoint_sub; eauto; nia. }
    exists p', um'. split; auto. split.
    2:{ intros x. rewrite G. apply (wrote_domain um um1 (elem_addr a) (itemsize (e_me e) (a_dtype a)) k outs); [lia| |exact W1].
        rewrite Hzo. eapply mapped_sub; eauto; nia. }
    intros x Hx. rewrite F.
    + apply W1. intros (y & Hy & Hxy). apply Hx. exists y. nia.
    + intros (y & Hy & Hxy). apply Hx. exists y. nia.
  - cbn [read_loop]. replace (0 <? n) with true by lia. cbn [negb].
    rewrite (eof_spec _ _ _ _ HL Hp). cbn [bind]. replace (o =? zsum sizes) with false by lia.
    destruct (next_chunk_spec b sizes p o cs n HL Hp ltac:(lia) ltac:(lia) ltac:(lia)) as (c' & -> & Hc'). cbn [bind].
    fold i in Hc'. fold c in Hc'. rewrite Hc'. clear c' Hc'.
    replace (c =? 0) with false by lia.
    rewrite Hpath. unfold fopen_r, data_file in *.
    destruct (fs_get f (data_path (b_base b) (Z.of_nat i))) as [[|cont]|] eqn:Eg.
    + rewrite Hfel. replace (p_roffset p * w <? 0) with false by nia. cbn [store or_ub bind length].
      replace (0 =? Z.to_nat (c * w))%nat with false by nia. cbn [negb]. do 2 eexists. split; [reflexivity|]. split; [auto|tauto].
    + rewrite Hfel. replace (p_roffset p * w <? 0) with false by nia.
      unfold pread.
      set (l := firstn (Z.to_nat (c * w)) (skipn (Z.to_nat (p_roffset p * w)) cont)).
      assert (Hll : (length l < Z.to_nat (c * w))%nat).
      { unfold l. rewrite firstn_length, skipn_length. unfold zlen in Eav. nia. }
      destruct (store_some l cb 0) as [cb1 Ecb].
      { intros y Hy. apply Hcb. nia. }
      rewrite Ecb. cbn [or_ub bind].
      replace (length l =? Z.to_nat (c * w))%nat with false by lia. cbn [negb]. do 2 eexists. split; [reflexivity|]. split; [auto|tauto].
    + do 2 eexists. split; [reflexivity|]. split; [auto|tauto].
Qed.

Lemma read_missing e sizes w a f b p um o n :
  wblock e b sizes w -> w <= e_chunk e -> w < 2 ^ 31 ->
  array_ok a -> dt_ok (e_me e) (a_dtype a) ->
  total_conv (e_me e) (b_dtype b) (a_dtype a) ->
  n = a_size a / b_nmemb b ->
  (exists r, o <= r < o + n /\ stored_row f (b_base b) sizes w r = None) ->
  mapped um (elem_addr a) (itemsize (e_me e) (a_dtype a)) 0 (a_size a) ->
  elems_disjoint (elem_addr a) (itemsize (e_me e) (a_dtype a)) 0 (a_size a) ->
  ptr_at sizes p o -> o + n <= zsum sizes ->
  exists p' um',
    big_block_read e f b p a um = Ret (-1, p', um') /\
    (forall x, ~ in_elems (elem_addr a) (itemsize (e_me e) (a_dtype a)) 0 (a_size a) x -> um' x = um x).
Proof.
  intros HW Hwc Hw31 Ha Hda Htot Hn Hmiss Hm Hd Hp Ho.
  assert (Hsz : 0 < a_size a) by (rewrite (ao_size _ Ha); apply zprod_pos; apply Ha).
  pose proof (wb_wpos _ _ _ _ HW) as Hwp. pose proof (wb_nmemb _ _ _ _ HW) as Hnm.
  unfold big_block_read.
  rewrite (wb_felsize _ _ _ _ HW). replace (2 ^ 31 <=? Z.abs w) with false by lia.
  replace (w =? 0) with false by lia. cbv zeta.
  rewrite (chunk_array_init (e_me e) b) by apply HW. cbn [bind].
  rewrite (chunk_rows_spec _ _ _ _ HW) by auto.
  pose proof (wb_layout _ _ _ _ HW) as HL.
  rewrite (ptr_offset _ _ _ _ HL Hp). cbn [or_ub bind].
  rewrite (pa_abs _ _ _ Hp). rewrite row_nmemb_pos by apply Hnm. rewrite <- Hn.
  assert (Hn0 : 0 <= n) by (subst n; apply Z.div_pos; lia).
  pose proof (pa_range _ _ _ Hp). pose proof (hl_small _ _ HL).
  rewrite s64_id by lia. rewrite u64_id by lia. rewrite (hl_size _ _ HL).
  replace (zsum sizes <? o + n) with false by lia.
  assert (Hnb : n * b_nmemb b <= a_size a).
  { rewrite Hn, Z.mul_comm. apply Z.mul_div_le. lia. }
  destruct (read_loop_missing e sizes w a (e_chunk e / w) Ha Hda ltac:(apply Z.div_str_pos; lia)
     (S (Z.to_nat n)) n f b p (chunk_mem e) um (iter_init (e_me e) a) o 0)
    as (p' & um' & E & F); auto; try lia.
  - apply chunk_mem_mapped. rewrite Z.mul_comm. apply Z.mul_div_le. lia.
  - apply iter_init_at; auto.
  - destruct Hmiss as (r & Hr & Hmiss). exists (r - o). replace (o + (r - o)) with r by lia. split; auto. lia.
  - eapply mapped_sub; eauto; lia.
  - eapply disjoint_sub; eauto; lia.
  - rewrite E. exists p', um'. split; auto. intros x Hx. apply F. intros (y & Hy & Hxy). apply Hx. exists y. lia.
Qed.

(* A buffer smaller than one row: read reports an error. *)
Lemma read_small_buffer e sizes w a f b p um o n :
  wblock e b sizes w -> 0 <= e_chunk e < w -> w < 2 ^ 31 -> dt_ok (e_me e) (b_dtype b) ->
  n = a_size a / b_nmemb b -> 0 < n ->
  ptr_at sizes p o -> o + n <= zsum sizes ->
  big_block_read e f b p a um = Ret (-1, p, um).
Proof.
  intros HW Hwc Hw31 Hdb Hn Hn0 Hp Ho.
  pose proof (wb_wpos _ _ _ _ HW) as Hwp. pose proof (wb_nmemb _ _ _ _ HW) as Hnm.
  unfold big_block_read.
  rewrite (wb_felsize _ _ _ _ HW). replace (2 ^ 31 <=? Z.abs w) with false by lia.
  replace (w =? 0) with false by lia. cbv zeta.
  rewrite (chunk_array_init (e_me e) b) by apply HW. cbn [bind].
  rewrite (chunk_rows_spec _ _ _ _ HW) by auto.
  pose proof (wb_layout _ _ _ _ HW) as HL.
  rewrite (ptr_offset _ _ _ _ HL Hp). cbn [or_ub bind].
  rewrite (pa_abs _ _ _ Hp). rewrite row_nmemb_pos by apply Hnm. rewrite <- Hn.
  pose proof (pa_range _ _ _ Hp). pose proof (hl_small _ _ HL).
  rewrite s64_id by lia. rewrite u64_id by lia. rewrite (hl_size _ _ HL).
  replace (zsum sizes <? o + n) with false by lia.
  rewrite Z.div_small by lia.
  cbn [read_loop]. replace (0 <? n) with true by lia. cbn [negb].
  rewrite (eof_spec _ _ _ _ HL Hp). cbn [bind]. replace (o =? zsum sizes) with false by lia.
  destruct (next_chunk_spec b sizes p o 0 n HL Hp ltac:(lia) ltac:(lia) ltac:(lia)) as (c' & -> & Hc'). cbn [bind].
  destruct (ptr_in _ _ _ _ HL Hp ltac:(lia)) as (Pf & Pr & Ph).
  replace (c' =? 0) with true by lia. reflexivity.
Qed.

(* ------------------------------------------------ rows after put_rows *)
Lemma data_file_set_other f base i j c : (i < Z.to_nat (2 ^ 31))%nat -> (j < Z.to_nat (2 ^ 31))%nat -> i <> j ->
  data_file (fs_set f (data_path base (Z.of_nat j)) (File c)) base i = data_file f base i.
Proof.
  intros Hi Hj Hn. unfold data_file. rewrite fs_get_set_other; auto.
  intros E. apply data_path_inj in E; lia.
Qed.

Lemma nth_firstn' (m : bytes) k j : (j < k)%nat -> nth j (firstn k m) x00 = nth j m x00.
Proof. revert k j. induction m as [|a m IH]; intros [|k] [|j] H; simpl; auto; try lia. apply IH. lia. Qed.
Lemma nth_skipn' (m : bytes) k j : nth j (skipn k m) x00 = nth (k + j) m x00.
Proof. revert m. induction k; intros [|a m]; simpl; auto. destruct j; auto. Qed.

Lemma stored_put_same f base sizes w r v i q c : Forall (fun s => 0 <= s) sizes -> 0 < w ->
  home sizes r = Some (i, q) -> data_file f base i = Some c -> length v = Z.to_nat w ->
  stored_row (put_row f base sizes w r v) base sizes w r = Some v.
Proof.
  intros Hn Hw Hh Hd Hl. assert (Hv : v <> []) by (intros ->; simpl in Hl; lia).
  assert (Hq : 0 <= q) by (apply home_spec in Hh; auto; lia).
  rewrite (put_row_pwrite _ _ _ _ _ _ i q c) by auto. unfold stored_row. rewrite Hh, data_file_set_same.
  set (c' := pwrite c (Z.to_nat (q * w)) v).
  assert (Hl' : length c' = Nat.max (length c) (Z.to_nat (q * w) + length v)) by (apply pwrite_length; auto).
  replace ((q + 1) * w <=? zlen c') with true by (unfold zlen; nia).
  f_equal. apply bytes_ext.
  - rewrite firstn_length, skipn_length. nia.
  - intros n. destruct (Nat.ltb_spec n (Z.to_nat w)).
    + rewrite nth_firstn', nth_skipn' by auto. unfold c'. rewrite nth_pwrite.
      replace ((Z.to_nat (q * w) <=? Z.to_nat (q * w) + n) && (Z.to_nat (q * w) + n <? Z.to_nat (q * w) + length v))%nat with true by lia.
      f_equal. lia.
    + rewrite !nth_overflow; auto; try lia. rewrite firstn_length. lia.
Qed.

Lemma stored_put_other f base sizes w r r' v u : Forall (fun s => 0 <= s) sizes -> zlen sizes < 2 ^ 31 -> 0 < w ->
  r <> r' -> length v = Z.to_nat w -> stored_row f base sizes w r' = Some u ->
  stored_row (put_row f base sizes w r v) base sizes w r' = Some u.
Proof.
  intros Hn Hcnt Hw Hr Hl Hs. assert (Hv : v <> []) by (intros ->; simpl in Hl; lia).
  destruct (home sizes r) as [[i q]|] eqn:Hh. 2:{ unfold put_row. rewrite Hh. auto. }
  destruct (data_file f base i) as [c|] eqn:Hd. 2:{ unfold put_row. rewrite Hh, Hd. auto. }
  rewrite (put_row_pwrite _ _ _ _ _ _ i q c) by auto. unfold stored_row in *.
  destruct (home sizes r') as [[i' q']|] eqn:Hh'; [|discriminate].
  apply home_spec in Hh; auto. apply home_spec in Hh'; auto. unfold zlen in Hcnt.
  destruct (Nat.eq_dec i' i) as [->|Hne].
  - rewrite data_file_set_same. rewrite Hd in Hs.
    destruct ((q' + 1) * w <=? zlen c) eqn:E; [|discriminate]. injection Hs as <-.
    set (c' := pwrite c (Z.to_nat (q * w)) v).
    assert (Hl' : length c' = Nat.max (length c) (Z.to_nat (q * w) + length v)) by (apply pwrite_length; auto).
    replace ((q' + 1) * w <=? zlen c') with true by (unfold zlen in *; lia).
    f_equal. apply bytes_ext.
    + rewrite !firstn_length, !skipn_length. unfold zlen in *. nia.
    + intros n. destruct (Nat.ltb_spec n (Z.to_nat w)).
      * rewrite !nth_firstn', !nth_skipn' by auto. unfold c'. rewrite nth_pwrite.
        replace ((Z.to_nat (q * w) <=? Z.to_nat (q' * w) + n) && (Z.to_nat (q' * w) + n <? Z.to_nat (q * w) + length v))%nat with false; auto.
        symmetry. apply andb_false_iff. assert (q <> q') by (intros ->; lia).
        destruct (Z_lt_le_dec q q'); [right|left]; nia.
      * rewrite !nth_overflow; auto; rewrite ?firstn_length; lia.
  - rewrite data_file_set_other; auto; lia.
Qed.

(* A row that was not stored before can only become stored by being written,
   or as zeros in front of a row written later in the same file. *)
Lemma stored_put_new f base sizes w r r' v u : Forall (fun s => 0 <= s) sizes -> zlen sizes < 2 ^ 31 -> 0 < w ->
  r <> r' -> length v = Z.to_nat w -> stored_row f base sizes w r' = None ->
  stored_row (put_row f base sizes w r v) base sizes w r' = Some u ->
  r' < r /\ exists i q q', home sizes r = Some (i, q) /\ home sizes r' = Some (i, q').
Proof.
  intros Hn Hcnt Hw Hr Hl Hs Hu. assert (Hv : v <> []) by (intros ->; simpl in Hl; lia).
  destruct (home sizes r) as [[i q]|] eqn:Hh. 2:{ unfold put_row in Hu. rewrite Hh in Hu. congruence. }
  destruct (data_file f base i) as [c|] eqn:Hd. 2:{ unfold put_row in Hu. rewrite Hh, Hd in Hu. congruence. }
  rewrite (put_row_pwrite _ _ _ _ _ _ i q c) in Hu by auto. unfold stored_row in *.
  destruct (home sizes r') as [[i' q']|] eqn:Hh'; [|discriminate].
  pose proof Hh as Hhr. pose proof Hh' as Hhr'.
  apply home_spec in Hh; auto. apply home_spec in Hh'; auto. unfold zlen in Hcnt.
  destruct (Nat.eq_dec i' i) as [->|Hne].
  - rewrite data_file_set_same in Hu. rewrite Hd in Hs.
    destruct ((q' + 1) * w <=? zlen c) eqn:E; [discriminate|].
    destruct (Z.leb_spec ((q' + 1) * w) (zlen (pwrite c (Z.to_nat (q * w)) v))) as [E2|]; [|discriminate].
    unfold zlen in *. rewrite pwrite_length in E2 by auto.
    split; [|exists i, q, q'; auto]. assert (q <> q') by (intros ->; lia). nia.
  - rewrite data_file_set_other in Hu by lia. congruence.
Qed.

Lemma put_row_files f base sizes w r v : files_exist f base sizes -> files_exist (put_row f base sizes w r v) base sizes.
Proof.
  intros H i Hi. unfold put_row. destruct (home sizes r) as [[j q]|]; auto.
  destruct (data_file f base j); auto. apply data_file_set_exists. auto.
Qed.

Lemma put_rows_files base sizes w rows : forall f r, files_exist f base sizes ->
  files_exist (put_rows f base sizes w r rows) base sizes.
Proof. induction rows; intros f r H; simpl; auto. apply IHrows, put_row_files, H. Qed.

Lemma put_rows_frame base sizes w rows : forall f r p,
  (forall i, (i < length sizes)%nat -> p <> data_path base (Z.of_nat i)) -> Forall (fun s => 0 <= s) sizes ->
  fs_get (put_rows f base sizes w r rows) p = fs_get f p.
Proof.
  induction rows; intros f r p H Hn; simpl; auto. rewrite IHrows by auto. unfold put_row.
  destruct (home sizes r) as [[j q]|] eqn:Hh; auto. destruct (data_file f base j); auto.
  apply fs_get_set_other. apply H. apply home_spec in Hh; auto. lia.
Qed.

Lemma stored_row_ext f g base sizes w r : fs_eq f g -> stored_row f base sizes w r = stored_row g base sizes w r.
Proof.
  intros H. unfold stored_row. destruct (home sizes r) as [[i q]|]; auto. rewrite (data_file_ext f g); auto.
Qed.

Lemma stored_puts_other base sizes w rows : forall f r r' u, Forall (fun s => 0 <= s) sizes -> zlen sizes < 2 ^ 31 -> 0 < w ->
  Forall (fun v => length v = Z.to_nat w) rows -> (r' < r \/ r + zlen rows <= r') ->
  stored_row f base sizes w r' = Some u ->
  stored_row (put_rows f base sizes w r rows) base sizes w r' = Some u.
Proof.
  induction rows as [|v rows IH]; intros f r r' u Hn Hc Hw Hl Hr Hs; simpl; auto.
  inversion Hl; subst. rewrite zlen_cons in Hr. pose proof (zlen_nonneg rows). apply IH; auto. lia.
  apply stored_put_other; auto. lia.
Qed.

Lemma stored_puts_same base sizes w rows : forall f r j v, Forall (fun s => 0 <= s) sizes -> zlen sizes < 2 ^ 31 -> 0 < w ->
  Forall (fun v => length v = Z.to_nat w) rows -> 0 <= r -> r + zlen rows <= zsum sizes ->
  files_exist f base sizes -> nth_error rows j = Some v ->
  stored_row (put_rows f base sizes w r rows) base sizes w (r + Z.of_nat j) = Some v.
Proof.
  induction rows as [|u rows IH]; intros f r j v Hn Hc Hw Hl Hr0 Hr Hf Hj; [destruct j; discriminate|].
  inversion Hl; subst. rewrite zlen_cons in Hr. pose proof (zlen_nonneg rows). destruct j as [|j].
  - simpl in Hj. injection Hj as ->. simpl put_rows. replace (r + Z.of_nat 0) with r by lia. apply stored_puts_other; auto; try lia.
    destruct (home_some sizes r Hn ltac:(lia)) as (i & q & Hh).
    assert (Hi : (i < length sizes)%nat) by (apply home_spec in Hh; auto; lia).
    destruct (data_file f base i) as [c|] eqn:Hd. 2:{ exfalso. apply (Hf i Hi Hd). }
    eapply stored_put_same; eauto.
  - simpl in Hj. simpl put_rows. replace (r + Z.of_nat (S j)) with (r + 1 + Z.of_nat j) by lia.
    apply IH; auto; try lia. apply put_row_files; auto.
Qed.
