(* The transfer properties, assembled from the loop lemmas. *)
From Coq.Strings Require Import Byte String.
From Coq Require Import List ZArith Lia Bool ZifyBool ZifyNat.
From Verif Require Import Base BaseFacts Dtype Cast Array FS Fmt Block Spec SeekFacts FSFacts ArrayFacts ConvFacts WriteFacts ReadFacts TableFacts.
Import ListNotations.
Open Scope Z_scope.
Ltac Zify.zify_post_hook ::= Z.div_mod_to_equations.

(* ------------------------------------------------------------ general *)
Lemma rows_elems_widths e b sizes w n es : wblock e b sizes w -> 0 <= n -> zlen es = n * b_nmemb b ->
  Forall (fun v => length v = Z.to_nat (itemsize (e_me e) (b_dtype b))) es ->
  Forall (fun v => length v = Z.to_nat w) (rows_of (b_nmemb b) n es).
Proof.
  intros HW Hn Hl Hf. rewrite (wb_w _ _ _ _ HW). pose proof (wb_nmemb _ _ _ _ HW).
  assert (0 < itemsize (e_me e) (b_dtype b)) by apply HW.
  apply rows_of_widths; auto; lia.
Qed.

Lemma converts_Forall me sd dd vs outs : dt_ok me sd -> dt_ok me dd ->
  Forall (fun v => length v = Z.to_nat (itemsize me sd)) vs ->
  Forall2 (converts me sd dd) vs outs ->
  Forall (fun v => length v = Z.to_nat (itemsize me dd)) outs.
Proof.
  intros Hs Hd Hf H. induction H; constructor.
  - inversion Hf; subst. eapply (converts_length me sd dd); eauto.
  - inversion Hf; subst. auto.
Qed.

Lemma size_elems a nm n (vs : list bytes) : 0 < nm -> n = a_size a / nm -> zlen vs = n * nm -> zlen vs <= a_size a.
Proof. intros Hn -> ->. rewrite Z.mul_comm. apply Z.mul_div_le. lia. Qed.

(* ------------------------------------------------- C03: read after write *)
Lemma write_then_read e1 e2 sizes w f b1 b2 p1 p2 a1 a2 um1 um2 o n vs outs res :
  e_me e1 = e_me e2 ->
  wblock e1 b1 sizes w -> wblock e2 b2 sizes w ->
  b_base b2 = b_base b1 -> b_dtype b2 = b_dtype b1 -> b_nmemb b2 = b_nmemb b1 ->
  w <= e_chunk e1 -> w <= e_chunk e2 -> w < 2 ^ 31 ->
  array_ok a1 -> array_ok a2 -> dt_ok (e_me e1) (a_dtype a1) -> dt_ok (e_me e2) (a_dtype a2) ->
  n = a_size a1 / b_nmemb b1 -> n = a_size a2 / b_nmemb b1 -> zlen vs = n * b_nmemb b1 ->
  convertible (e_me e1) (a_dtype a1) (b_dtype b1) -> convertible (e_me e2) (b_dtype b1) (a_dtype a2) ->
  holds um1 (elem_addr a1) (itemsize (e_me e1) (a_dtype a1)) 0 vs ->
  (dt_native (e_me e1) (a_dtype a1) = false ->
     elems_disjoint (elem_addr a1) (itemsize (e_me e1) (a_dtype a1)) 0 (zlen vs)) ->
  mapped um2 (elem_addr a2) (itemsize (e_me e2) (a_dtype a2)) 0 (zlen vs) ->
  elems_disjoint (elem_addr a2) (itemsize (e_me e2) (a_dtype a2)) 0 (zlen vs) ->
  Forall2 (converts (e_me e1) (a_dtype a1) (b_dtype b1)) vs outs ->
  Forall2 (converts (e_me e2) (b_dtype b1) (a_dtype a2)) outs res ->
  ptr_at sizes p1 o -> ptr_at sizes p2 o -> o + n <= zsum sizes -> files_exist f (b_base b1) sizes ->
  exists f' b1' p1' um1' p2' um2',
    big_block_write e1 f b1 p1 a1 um1 = Ret (0, f', b1', p1', um1') /\
    big_block_read e2 f' b2 p2 a2 um2 = Ret (0, p2', um2') /\
    ptr_at sizes p1' (o + n) /\ ptr_at sizes p2' (o + n) /\
    wrote um2 um2' (elem_addr a2) (itemsize (e_me e2) (a_dtype a2)) 0 res.
Proof.
  intros Hme HW1 HW2 Hbase Hdt Hnm Hc1 Hc2 Hw31 Ha1 Ha2 Hd1 Hd2 Hn1 Hn2 Hlen Hcv1 Hcv2 Hh Hdj1 Hm2 Hdj2 Hf1 Hf2 Hp1 Hp2 Ho Hfe.
  destruct (write_spec e1 sizes w a1 f b1 p1 um1 o vs outs n) as (f' & p1' & um1' & E1 & F1 & P1 & S1); auto.
  pose proof (wb_nmemb _ _ _ _ HW1) as Hnmp.
  assert (Hsz1 : 0 < a_size a1) by (rewrite (ao_size _ Ha1); apply zprod_pos; apply Ha1).
  assert (Hn0 : 0 <= n) by (rewrite Hn1; apply Z.div_pos; lia).
  pose proof (Forall2_length Hf1) as L1. pose proof (Forall2_length Hf2) as L2.
  assert (Hlo : zlen outs = n * b_nmemb b1) by (unfold zlen in *; lia).
  pose proof (wb_layout _ _ _ _ HW1) as HL. pose proof (wb_wpos _ _ _ _ HW1) as Hwp.
  assert (Hvw : Forall (fun v => length v = Z.to_nat (itemsize (e_me e1) (a_dtype a1))) vs) by (eapply holds_Forall; eauto).
  assert (How : Forall (fun v => length v = Z.to_nat (itemsize (e_me e1) (b_dtype b1))) outs).
  { eapply (converts_Forall (e_me e1) (a_dtype a1)); [auto|apply HW1|exact Hvw|exact Hf1]. }
  assert (Hrw : Forall (fun v => length v = Z.to_nat w) (rows_of (b_nmemb b1) n outs)).
  { eapply rows_elems_widths; eauto. }
  assert (Hrl : zlen (rows_of (b_nmemb b1) n outs) = n) by (unfold zlen; rewrite rows_of_length; lia).
  destruct (read_spec e2 sizes w a2 f' b2 p2 um2 o outs res n) as (p2' & um2' & E2 & P2 & W2); auto.
  - rewrite Hdt. auto.
  - rewrite Hnm. auto.
  - rewrite Hnm. auto.
  - rewrite Hdt, <- Hme. auto.
  - rewrite Hnm, Hbase. intros j v Hj. rewrite (stored_row_ext _ _ _ _ _ _ F1).
    apply (stored_puts_same (b_base b1) sizes w (rows_of (b_nmemb b1) n outs) f o j v); auto; try apply HL.
    + apply (pa_range _ _ _ Hp1).
    + rewrite Hrl. auto.
  - rewrite Hdt. auto.
  - rewrite Hlo. rewrite Hlen in Hm2. auto.
  - rewrite Hlo. rewrite Hlen in Hdj2. auto.
  - eexists f', _, p1', um1', p2', um2'. split; [exact E1|]. split; [exact E2|]. auto.
Qed.

(* When the three element types differ at most in byte order, the values come
   back in the byte order of the destination. *)
Lemma write_then_read_same e1 e2 sizes w f b1 b2 p1 p2 a1 a2 um1 um2 o n vs :
  e_me e1 = e_me e2 ->
  wblock e1 b1 sizes w -> wblock e2 b2 sizes w ->
  b_base b2 = b_base b1 -> b_dtype b2 = b_dtype b1 -> b_nmemb b2 = b_nmemb b1 ->
  w <= e_chunk e1 -> w <= e_chunk e2 -> w < 2 ^ 31 ->
  array_ok a1 -> array_ok a2 -> a_dtype a2 = a_dtype a1 -> dt_ok (e_me e1) (a_dtype a1) ->
  suffix (a_dtype a1) = suffix (b_dtype b1) ->
  n = a_size a1 / b_nmemb b1 -> n = a_size a2 / b_nmemb b1 -> zlen vs = n * b_nmemb b1 ->
  holds um1 (elem_addr a1) (itemsize (e_me e1) (a_dtype a1)) 0 vs ->
  (dt_native (e_me e1) (a_dtype a1) = false ->
     elems_disjoint (elem_addr a1) (itemsize (e_me e1) (a_dtype a1)) 0 (zlen vs)) ->
  mapped um2 (elem_addr a2) (itemsize (e_me e2) (a_dtype a2)) 0 (zlen vs) ->
  elems_disjoint (elem_addr a2) (itemsize (e_me e2) (a_dtype a2)) 0 (zlen vs) ->
  ptr_at sizes p1 o -> ptr_at sizes p2 o -> o + n <= zsum sizes -> files_exist f (b_base b1) sizes ->
  exists f' b1' p1' um1' p2' um2',
    big_block_write e1 f b1 p1 a1 um1 = Ret (0, f', b1', p1', um1') /\
    big_block_read e2 f' b2 p2 a2 um2 = Ret (0, p2', um2') /\
    ptr_at sizes p1' (o + n) /\ ptr_at sizes p2' (o + n) /\
    wrote um2 um2' (elem_addr a2) (itemsize (e_me e2) (a_dtype a2)) 0 vs.
Proof.
  intros Hme HW1 HW2 Hbase Hdt Hnm Hc1 Hc2 Hw31 Ha1 Ha2 Hda Hd1 Hsf Hn1 Hn2 Hlen Hh Hdj1 Hm2 Hdj2 Hp1 Hp2 Ho Hfe.
  set (g := fun v => reorder (e_me e1) (b_dtype b1) (reorder (e_me e1) (a_dtype a1) v)).
  eapply (write_then_read e1 e2 sizes w f b1 b2 p1 p2 a1 a2 um1 um2 o n vs (map g vs) vs); eauto.
  - rewrite Hda, <- Hme. auto.
  - left. auto.
  - left. congruence.
  - apply Forall2_map_r. apply Forall_forall. intros v _. apply same_suffix_converts. auto.
  - apply Forall2_map_l. clear Hlen Hh Hdj1 Hm2 Hdj2. induction vs; constructor; auto.
    pose proof (same_suffix_converts (e_me e2) (b_dtype b1) (a_dtype a2) (g a) ltac:(congruence)) as H.
    unfold g in H |- *. rewrite <- Hme in H |- *. rewrite reorder_invol, Hda, reorder_invol in H. rewrite Hda. exact H.
Qed.

(* ---------------------------------------------------------- C04: frame *)
Lemma put_rows_frame_exact base sizes w rows : forall f r p,
  (forall r' i q, r <= r' < r + zlen rows -> home sizes r' = Some (i, q) -> p <> data_path base (Z.of_nat i)) ->
  fs_get (put_rows f base sizes w r rows) p = fs_get f p.
Proof.
  induction rows as [|v rows IH]; intros f r p H; simpl; auto.
  rewrite zlen_cons in H. pose proof (zlen_nonneg rows).
  rewrite IH.
  - unfold put_row. destruct (home sizes r) as [[j q]|] eqn:Hh; auto. destruct (data_file f base j); auto.
    apply fs_get_set_other. eapply H; eauto. lia.
  - intros r' i q Hr. eapply H; eauto; lia.
Qed.

Lemma write_frame e sizes w a f b p um o vs outs n :
  wblock e b sizes w -> w <= e_chunk e -> w < 2 ^ 31 ->
  array_ok a -> dt_ok (e_me e) (a_dtype a) ->
  convertible (e_me e) (a_dtype a) (b_dtype b) ->
  n = a_size a / b_nmemb b -> zlen vs = n * b_nmemb b ->
  holds um (elem_addr a) (itemsize (e_me e) (a_dtype a)) 0 vs ->
  (dt_native (e_me e) (a_dtype a) = false ->
     elems_disjoint (elem_addr a) (itemsize (e_me e) (a_dtype a)) 0 (zlen vs)) ->
  Forall2 (converts (e_me e) (a_dtype a) (b_dtype b)) vs outs ->
  ptr_at sizes p o -> o + n <= zsum sizes -> files_exist f (b_base b) sizes ->
  whole_rows f (b_base b) sizes w ->
  exists f' b' p' um',
    big_block_write e f b p a um = Ret (0, f', b', p', um') /\
    (forall j v, nth_error (rows_of (b_nmemb b) n outs) j = Some v ->
       stored_row f' (b_base b) sizes w (o + Z.of_nat j) = Some v) /\
    (forall r u, r < o \/ o + n <= r ->
       (stored_row f (b_base b) sizes w r = Some u -> stored_row f' (b_base b) sizes w r = Some u) /\
       (stored_row f (b_base b) sizes w r = None ->
          (stored_row f' (b_base b) sizes w r = Some u <->
             u = repeat x00 (Z.to_nat w) /\
             exists r2, o <= r2 < o + n /\ r < r2 /\ same_file sizes r2 r))) /\
    (forall q, (forall r i k, o <= r < o + n -> home sizes r = Some (i, k) -> q <> data_path (b_base b) (Z.of_nat i)) ->
       fs_get f' q = fs_get f q) /\
    files_exist f' (b_base b) sizes /\ whole_rows f' (b_base b) sizes w.
Proof.
  intros HW Hwc Hw31 Ha Hda Hconv Hn Hlen Hh Hdj Hf Hp Ho Hfe Hwh.
  destruct (write_spec e sizes w a f b p um o vs outs n) as (f' & p' & um' & E & F & P & S); auto.
  pose proof (wb_layout _ _ _ _ HW) as HL. pose proof (wb_wpos _ _ _ _ HW) as Hwp.
  pose proof (wb_nmemb _ _ _ _ HW) as Hnmp.
  assert (Hsz : 0 < a_size a) by (rewrite (ao_size _ Ha); apply zprod_pos; apply Ha).
  assert (Hn0 : 0 <= n) by (rewrite Hn; apply Z.div_pos; lia).
  pose proof (Forall2_length Hf) as L1.
  assert (Hlo : zlen outs = n * b_nmemb b) by (unfold zlen in *; lia).
  assert (How : Forall (fun v => length v = Z.to_nat (itemsize (e_me e) (b_dtype b))) outs).
  { eapply (converts_Forall (e_me e) (a_dtype a)); [auto|apply HW|eapply holds_Forall; exact Hh|exact Hf]. }
  assert (Hrw : Forall (fun v => length v = Z.to_nat w) (rows_of (b_nmemb b) n outs)).
  { eapply rows_elems_widths; eauto. }
  set (rows := rows_of (b_nmemb b) n outs) in *.
  assert (Hrl : zlen rows = n) by (unfold zlen, rows; rewrite rows_of_length; lia).
  pose proof (pa_range _ _ _ Hp) as Hor.
  assert (Hsame : forall j v, nth_error rows j = Some v -> stored_row f' (b_base b) sizes w (o + Z.of_nat j) = Some v).
  { intros j v Hj. rewrite (stored_row_ext _ _ _ _ _ _ F).
    apply stored_puts_same; auto; try apply HL; lia. }
  eexists f', _, p', um'. split; [exact E|]. split; [exact Hsame|]. split; [|split; [|split]].
  - intros r u Hr. split.
    + intros Hs. rewrite (stored_row_ext _ _ _ _ _ _ F). apply stored_puts_other; auto; try apply HL; lia.
    + intros Hs. rewrite (stored_row_ext _ _ _ _ _ _ F). split.
      * intros Hu. eapply stored_puts_zero in Hu; eauto; try apply HL; try lia.
        rewrite Hrl in Hu. exact Hu.
      * intros (-> & r2 & Hr2 & Hlt & Hsf).
        destruct (nth_error rows (Z.to_nat (r2 - o))) as [v|] eqn:Ev.
        2:{ apply nth_error_None in Ev. unfold zlen in Hrl. lia. }
        specialize (Hsame _ _ Ev). replace (o + Z.of_nat (Z.to_nat (r2 - o))) with r2 in Hsame by lia.
        rewrite (stored_row_ext _ _ _ _ _ _ F) in Hsame.
        destruct (stored_before _ _ _ _ _ _ _ (hl_nonneg _ _ HL) Hwp Hsf ltac:(lia) Hsame) as [u' Hu'].
        rewrite Hu'. f_equal. eapply stored_puts_zero in Hu'; eauto; try apply HL; try lia. apply Hu'.
  - intros q Hq. rewrite F. apply put_rows_frame_exact. rewrite Hrl. exact Hq.
  - eapply files_ext; [apply fs_eq_sym; exact F|]. apply put_rows_files; auto.
  - eapply whole_ext; [apply fs_eq_sym; exact F|]. apply put_rows_whole; auto; apply HL.
Qed.

(* ------------------------------------------------ C06: the buffer size *)
Lemma in_elems_dec addr w k x : forall n : nat,
  in_elems addr w k (Z.of_nat n) x \/ ~ in_elems addr w k (Z.of_nat n) x.
Proof.
  induction n.
  - right. intros (j & Hj & _). lia.
  - destruct IHn as [(j & Hj & H)|IHn]; [left; exists j; split; auto; lia|].
    destruct (Z_le_dec (addr (k + Z.of_nat n)) x) as [H1|H1];
      [destruct (Z_lt_dec x (addr (k + Z.of_nat n) + w)) as [H2|H2]|].
    + left. exists (k + Z.of_nat n). split; lia.
    + right. intros (j & Hj & H). destruct (Z.eq_dec j (k + Z.of_nat n)); [subst; lia|].
      apply IHn. exists j. split; auto. lia.
    + right. intros (j & Hj & H). destruct (Z.eq_dec j (k + Z.of_nat n)); [subst; lia|].
      apply IHn. exists j. split; auto. lia.
Qed.

Lemma wrote_unique m m1 m2 addr w k vs : 
  wrote m m1 addr w k vs -> wrote m m2 addr w k vs -> forall x, m1 x = m2 x.
Proof.
  intros [A1 A2] [B1 B2] x. destruct (in_elems_dec addr w k x (length vs)) as [H|H]; unfold zlen in *.
  - destruct H as (j & Hj & Hx).
    destruct (nth_error vs (Z.to_nat (j - k))) as [v|] eqn:Ev.
    2:{ apply nth_error_None in Ev. lia. }
    pose proof (A1 _ _ Ev) as L1. pose proof (B1 _ _ Ev) as L2.
    replace (k + Z.of_nat (Z.to_nat (j - k))) with j in L1, L2 by lia.
    pose proof (load_nth _ _ _ _ L1 (Z.to_nat (x - addr j))) as N1.
    pose proof (load_nth _ _ _ _ L2 (Z.to_nat (x - addr j))) as N2.
    replace (addr j + Z.of_nat (Z.to_nat (x - addr j))) with x in N1, N2 by lia.
    rewrite N1, N2 by lia. reflexivity.
  - rewrite A2, B2 by auto. reflexivity.
Qed.

Lemma src_after_unique me m m1 m2 a k vs : src_after me m m1 a k vs -> src_after me m m2 a k vs ->
  forall x, m1 x = m2 x.
Proof.
  unfold src_after. destruct (dt_native me (a_dtype a)).
  - intros -> ->. auto.
  - apply wrote_unique.
Qed.

Lemma wblock_env e e' b sizes w : e_me e' = e_me e -> wblock e b sizes w -> wblock e' b sizes w.
Proof. intros H [A B C D]. constructor; auto; rewrite H; auto. Qed.

Lemma write_buffer e e' sizes w a f b p um o vs outs n :
  e_me e' = e_me e -> w <= e_chunk e' ->
  wblock e b sizes w -> w <= e_chunk e -> w < 2 ^ 31 ->
  array_ok a -> dt_ok (e_me e) (a_dtype a) ->
  convertible (e_me e) (a_dtype a) (b_dtype b) ->
  n = a_size a / b_nmemb b -> zlen vs = n * b_nmemb b ->
  holds um (elem_addr a) (itemsize (e_me e) (a_dtype a)) 0 vs ->
  (dt_native (e_me e) (a_dtype a) = false ->
     elems_disjoint (elem_addr a) (itemsize (e_me e) (a_dtype a)) 0 (zlen vs)) ->
  Forall2 (converts (e_me e) (a_dtype a) (b_dtype b)) vs outs ->
  ptr_at sizes p o -> o + n <= zsum sizes -> files_exist f (b_base b) sizes ->
  exists f1 f2 b' p1 p2 um1 um2,
    big_block_write e f b p a um = Ret (0, f1, b', p1, um1) /\
    big_block_write e' f b p a um = Ret (0, f2, b', p2, um2) /\
    fs_eq f1 f2 /\ (forall x, um1 x = um2 x) /\
    ptr_at sizes p1 (o + n) /\ ptr_at sizes p2 (o + n).
Proof.
  intros Hme Hc' HW Hwc Hw31 Ha Hda Hconv Hn Hlen Hh Hdj Hf Hp Ho Hfe.
  destruct (write_spec e sizes w a f b p um o vs outs n) as (f1 & p1 & um1 & E1 & F1 & P1 & S1); auto.
  pose proof (wblock_env e e' _ _ _ Hme HW) as HW'. 
  destruct (write_spec e' sizes w a f b p um o vs outs n) as (f2 & p2 & um2 & E2 & F2 & P2 & S2);
    rewrite ?Hme; auto.
  eexists f1, f2, _, p1, p2, um1, um2. split; [exact E1|]. split; [exact E2|].
  split; [eapply fs_eq_trans; [exact F1|apply fs_eq_sym; exact F2]|].
  split; auto. rewrite Hme in S2. eapply src_after_unique; eauto.
Qed.

Lemma read_buffer e e' sizes w a f b p um o es outs n :
  e_me e' = e_me e -> w <= e_chunk e' ->
  wblock e b sizes w -> w <= e_chunk e -> w < 2 ^ 31 ->
  array_ok a -> dt_ok (e_me e) (a_dtype a) ->
  convertible (e_me e) (b_dtype b) (a_dtype a) ->
  n = a_size a / b_nmemb b -> zlen es = n * b_nmemb b ->
  Forall (fun v => length v = Z.to_nat (itemsize (e_me e) (b_dtype b))) es ->
  (forall j v, nth_error (rows_of (b_nmemb b) n es) j = Some v ->
     stored_row f (b_base b) sizes w (o + Z.of_nat j) = Some v) ->
  Forall2 (converts (e_me e) (b_dtype b) (a_dtype a)) es outs ->
  mapped um (elem_addr a) (itemsize (e_me e) (a_dtype a)) 0 (zlen es) ->
  elems_disjoint (elem_addr a) (itemsize (e_me e) (a_dtype a)) 0 (zlen es) ->
  ptr_at sizes p o -> o + n <= zsum sizes ->
  exists p1 p2 um1 um2,
    big_block_read e f b p a um = Ret (0, p1, um1) /\
    big_block_read e' f b p a um = Ret (0, p2, um2) /\
    (forall x, um1 x = um2 x) /\
    ptr_at sizes p1 (o + n) /\ ptr_at sizes p2 (o + n).
Proof.
  intros Hme Hc' HW Hwc Hw31 Ha Hda Hconv Hn Hlen Hwid Hst Hf Hm Hdj Hp Ho.
  destruct (read_spec e sizes w a f b p um o es outs n) as (p1 & um1 & E1 & P1 & W1); auto.
  pose proof (wblock_env e e' _ _ _ Hme HW) as HW'. 
  destruct (read_spec e' sizes w a f b p um o es outs n) as (p2 & um2 & E2 & P2 & W2); rewrite ?Hme; auto.
  exists p1, p2, um1, um2. split; [exact E1|]. split; [exact E2|]. split; auto.
  rewrite Hme in W2. eapply wrote_unique; eauto.
Qed.

(* ------------------------------------------------------ C07: termination *)
Lemma bind_nodiv {A B} (x : out A) (k : A -> out B) : x <> Diverge -> (forall a, x = Ret a -> k a <> Diverge) -> bind x k <> Diverge.
Proof. destruct x; simpl; intros H1 H2; [apply H2; reflexivity|discriminate|congruence]. Qed.
Lemma orub_nodiv {A} w (o : option A) : or_ub w o <> Diverge.
Proof. destruct o; discriminate. Qed.

Lemma scalar_cast_nodiv me d s l : scalar_cast me d s l <> Diverge.
Proof.
  unfold scalar_cast, scalar_bits. destruct (sty_kind d), (sty_kind s); try discriminate.
  destruct (f_trunc _); [destruct (int_in_range _ _ _)|]; discriminate.
Qed.

Lemma cast_table_nodiv me d s sw dw g l : cast_table me d s = Some (sw, dw, g) -> g l <> Diverge.
Proof.
  unfold cast_table. intros H.
  destruct (bytes_eqb d (lit "c8")).
  - destruct (bytes_eqb s (lit "c16")); [|discriminate]. injection H as <- <- <-.
    apply bind_nodiv; [apply scalar_cast_nodiv|]. intros r1 _. apply bind_nodiv; [apply scalar_cast_nodiv|]. discriminate.
  - destruct (bytes_eqb d (lit "c16")).
    + destruct (bytes_eqb s (lit "c8")); [|discriminate]. injection H as <- <- <-.
      apply bind_nodiv; [apply scalar_cast_nodiv|]. intros r1 _. apply bind_nodiv; [apply scalar_cast_nodiv|]. discriminate.
    + destruct (sty_of d) as [[]|]; try discriminate; destruct (sty_of s); try discriminate;
      injection H as <- <- <-; apply scalar_cast_nodiv.
Qed.

Lemma advance_nodiv it : iter_advance it <> Diverge.
Proof.
  unfold iter_advance. destruct (rev (a_strides (it_arr it))); [discriminate|].
  destruct (rev (it_pos it)); [discriminate|]. destruct (it_contig it); [discriminate|].
  destruct (carry _ _ _ _). discriminate.
Qed.

Lemma copy_loop_nodiv g sw n : (forall l, g l <> Diverge) -> forall dm di sm si, copy_loop g sw dm di sm si n <> Diverge.
Proof.
  intros Hg. induction n; intros dm di sm si; simpl; [discriminate|].
  apply bind_nodiv; [apply orub_nodiv|]. intros l _. apply bind_nodiv; [apply Hg|]. intros l' _.
  apply bind_nodiv; [apply orub_nodiv|]. intros dm' _. apply bind_nodiv; [apply advance_nodiv|]. intros di' _.
  apply bind_nodiv; [apply advance_nodiv|]. intros si' _. apply IHn.
Qed.

Lemma byte_swap_nodiv me m it n : byte_swap me m it n <> Diverge.
Proof.
  unfold byte_swap. destruct (_ =? 1); [discriminate|]. generalize (itemsize me (a_dtype (it_arr it))). intros el.
  revert m it. induction n; intros m it; simpl; [discriminate|].
  apply bind_nodiv; [apply orub_nodiv|]. intros l _. apply bind_nodiv; [apply orub_nodiv|]. intros m' _.
  apply bind_nodiv; [apply advance_nodiv|]. intros it' _. apply IHn.
Qed.

Lemma convert_nodiv me dm di sm si n : dtype_convert me dm di sm si n <> Diverge.
Proof.
  unfold dtype_convert. apply bind_nodiv; [destruct (native _ _); [discriminate|apply byte_swap_nodiv]|]. intros sm1 _.
  apply bind_nodiv.
  - unfold cast. destruct (bytes_eqb _ _).
    + destruct (it_contig di && it_contig si).
      * apply bind_nodiv; [apply orub_nodiv|]. intros sd _. apply bind_nodiv; [apply orub_nodiv|]. intros ss _.
        destruct (_ <? 0); [discriminate|]. apply bind_nodiv; [apply orub_nodiv|]. intros l _.
        apply bind_nodiv; [apply orub_nodiv|]. discriminate.
      * destruct (_ && _); [discriminate|]. apply bind_nodiv; [apply copy_loop_nodiv; discriminate|]. discriminate.
    + destruct (cast_table _ _ _) as [[[sw dw] g]|] eqn:E; [|discriminate].
      apply bind_nodiv; [|discriminate]. apply copy_loop_nodiv. intros l. eapply cast_table_nodiv; eauto.
  - intros r _. destruct r as [[[dm1 di1] si1]|]; [|discriminate].
    apply bind_nodiv; [destruct (native _ _); [discriminate|apply byte_swap_nodiv]|]. discriminate.
Qed.

Lemma write_loop_ends e sizes ca cs : 0 < cs ->
  forall fuel n f b p cb um ai o, has_layout b sizes -> ptr_at sizes p o -> 0 <= n -> o + n <= zsum sizes ->
  n < Z.of_nat fuel -> write_loop e f b p cb ca um ai cs n fuel <> Diverge.
Proof.
  intros Hcs. induction fuel as [|fuel IH]; intros n f b p cb um ai o HL Hp Hn Ho Hfuel; [lia|].
  cbn [write_loop]. destruct (Z.ltb_spec 0 n); cbn [negb]; [|discriminate].
  rewrite (eof_spec _ _ _ _ HL Hp). cbn [bind]. replace (o =? zsum sizes) with false by lia.
  destruct (next_chunk_spec b sizes p o cs n HL Hp ltac:(lia) ltac:(lia) ltac:(lia)) as (c & -> & Hc). cbn [bind].
  destruct (ptr_in _ _ _ _ HL Hp ltac:(lia)) as (Pf & Pr & Ph).
  apply bind_nodiv; [apply convert_nodiv|]. intros [[[[rc cb1] x1] um1] ai1] _.
  destruct (negb (rc =? 0)); [discriminate|].
  apply bind_nodiv; [apply orub_nodiv|]. intros l _. 
  rewrite (znth_nth (b_fchecksum b) (p_fileid p) 0) by (pose proof (hl_cks _ _ HL); unfold zlen in *; lia).
  cbn [or_ub bind].
  rewrite zupd_some by (pose proof (hl_cks _ _ HL); unfold zlen in *; lia). cbn [or_ub bind].
  destruct (fopen_rp _ _); [|discriminate]. destruct (_ <? 0); [discriminate|].
  set (b1 := set_checksums b _).
  assert (HL1 : has_layout b1 sizes).
  { apply layout_set_cks; auto; [rewrite upd_length; apply HL|]. apply upd_Forall; [apply HL|].
    rewrite sysvsum_spec. apply Z.mod_pos_bound. lia.
    pose proof (hl_cksr _ _ HL) as Hcr. rewrite Forall_forall in Hcr. apply Hcr. apply nth_In.
    pose proof (hl_cks _ _ HL). unfold zlen in *. lia. }
  destruct (seek_rel_fwd b1 sizes p o c HL1 Hp ltac:(pose proof (pa_range _ _ _ Hp); lia)) as (p1 & -> & Hp1). cbn [bind].
  change (negb (0 =? 0)) with false. cbv iota. eapply IH; eauto; lia.
Qed.

Lemma read_loop_ends e sizes ca cs : 0 <= cs ->
  forall fuel n f b p cb um ai o, has_layout b sizes -> ptr_at sizes p o -> 0 <= n -> o + n <= zsum sizes ->
  n < Z.of_nat fuel -> read_loop e f b p cb ca um ai cs n fuel <> Diverge.
Proof.
  intros Hcs. induction fuel as [|fuel IH]; intros n f b p cb um ai o HL Hp Hn Ho Hfuel; [lia|].
  cbn [read_loop]. destruct (Z.ltb_spec 0 n); cbn [negb]; [|discriminate].
  rewrite (eof_spec _ _ _ _ HL Hp). cbn [bind]. replace (o =? zsum sizes) with false by lia.
  destruct (next_chunk_spec b sizes p o cs n HL Hp ltac:(lia) ltac:(lia) ltac:(lia)) as (c & -> & Hc). cbn [bind].
  destruct (ptr_in _ _ _ _ HL Hp ltac:(lia)) as (Pf & Pr & Ph).
  destruct (Z.eqb_spec c 0); [discriminate|].
  destruct (fopen_r _ _); [|discriminate]. destruct (_ <? 0); [discriminate|].
  apply bind_nodiv; [apply orub_nodiv|]. intros cb1 _. destruct (negb _); [discriminate|].
  apply bind_nodiv; [apply convert_nodiv|]. intros [[[[rc um1] ai1] cb2] x1] _.
  destruct (negb (rc =? 0)); [discriminate|].
  destruct (seek_rel_fwd b sizes p o c HL Hp ltac:(pose proof (pa_range _ _ _ Hp); lia)) as (p1 & -> & Hp1). cbn [bind].
  change (negb (0 =? 0)) with false. cbv iota. eapply IH; eauto; lia.
Qed.

Lemma array_init_nodiv me x d dims st : big_array_init me x d dims st <> Diverge.
Proof.
  unfold big_array_init. destruct (_ <? _); [discriminate|]. destruct st; [destruct (_ =? _)%nat; discriminate|].
  destruct dims; discriminate.
Qed.

Lemma write_ends e sizes w a f b p um o :
  wblock e b sizes w -> w < 2 ^ 31 -> w <= e_chunk e -> 0 <= a_size a < 2 ^ 63 -> ptr_at sizes p o ->
  big_block_write e f b p a um <> Diverge.
Proof.
  intros HW Hw31 Hwc Hsz Hp.
  pose proof (wb_wpos _ _ _ _ HW) as Hwp. pose proof (wb_nmemb _ _ _ _ HW) as Hnm.
  unfold big_block_write, big_block_write_fuel. destruct (a_size a =? 0); [discriminate|].
  pose proof (wb_dirty _ _ _ _ true HW) as HW1. set (b1 := set_bdirty b true) in *.
  rewrite (wb_felsize _ _ _ _ HW1). replace (2 ^ 31 <=? Z.abs w) with false by lia.
  replace (w =? 0) with false by lia. cbv zeta.
  rewrite (chunk_array_init (e_me e) b1) by apply HW1. cbn [bind].
  rewrite (chunk_rows_spec _ _ _ _ HW1) by auto.
  pose proof (wb_layout _ _ _ _ HW1) as HL.
  rewrite (ptr_offset _ _ _ _ HL Hp). cbn [or_ub bind].
  rewrite (pa_abs _ _ _ Hp). rewrite (row_nmemb_pos b), (row_nmemb_pos b1) by apply Hnm.
  change (b_nmemb b1) with (b_nmemb b).
  set (n := a_size a / b_nmemb b).
  assert (Hn0 : 0 <= n < 2 ^ 63).
  { unfold n. split; [apply Z.div_pos; lia|]. apply Z.div_lt_upper_bound; nia. }
  pose proof (pa_range _ _ _ Hp). pose proof (hl_small _ _ HL).
  rewrite u64_s64. rewrite u64_id by lia. rewrite (hl_size _ _ HL).
  destruct (Z.ltb_spec (zsum sizes) (o + n)); [discriminate|].
  eapply write_loop_ends; eauto; try lia.
Qed.

Lemma read_ends e sizes w a f b p um o :
  wblock e b sizes w -> w < 2 ^ 31 -> 0 <= e_chunk e -> 0 <= a_size a < 2 ^ 63 -> ptr_at sizes p o ->
  big_block_read e f b p a um <> Diverge.
Proof.
  intros HW Hw31 Hwc Hsz Hp.
  pose proof (wb_wpos _ _ _ _ HW) as Hwp. pose proof (wb_nmemb _ _ _ _ HW) as Hnm.
  unfold big_block_read.
  rewrite (wb_felsize _ _ _ _ HW). replace (2 ^ 31 <=? Z.abs w) with false by lia.
  replace (w =? 0) with false by lia. cbv zeta.
  rewrite (chunk_array_init (e_me e) b) by apply HW. cbn [bind].
  rewrite (chunk_rows_spec _ _ _ _ HW) by auto.
  pose proof (wb_layout _ _ _ _ HW) as HL.
  rewrite (ptr_offset _ _ _ _ HL Hp). cbn [or_ub bind].
  rewrite (pa_abs _ _ _ Hp). rewrite (row_nmemb_pos b) by apply Hnm.
  set (n := a_size a / b_nmemb b).
  assert (Hn0 : 0 <= n < 2 ^ 63).
  { unfold n. split; [apply Z.div_pos; lia|]. apply Z.div_lt_upper_bound; nia. }
  pose proof (pa_range _ _ _ Hp). pose proof (hl_small _ _ HL).
  rewrite u64_s64. rewrite u64_id by lia. rewrite (hl_size _ _ HL).
  destruct (Z.ltb_spec (zsum sizes) (o + n)); [discriminate|].
  eapply read_loop_ends; eauto; try lia. apply Z.div_pos; lia.
Qed.

(* --------------------------------------------------------- C11: traversal *)
Lemma advance_at me a : array_ok a -> forall k it j, iter_at me it a j ->
  exists it', advance k it = Ret it' /\ iter_at me it' a (j + Z.of_nat k).
Proof.
  intros Ha. induction k as [|k IH]; intros it j Hi.
  - exists it. split; auto. rewrite Z.add_0_r. auto.
  - cbn [advance]. destruct (iter_advance_at me it a j Ha Hi) as (it1 & -> & H1). cbn [bind].
    destruct (IH it1 (j + 1) H1) as (it' & E & H2). exists it'. split; auto.
    replace (j + Z.of_nat (S k)) with (j + 1 + Z.of_nat k) by lia. auto.
Qed.

Lemma traversal me a k : array_ok a -> Z.of_nat k < a_size a ->
  exists it, advance k (iter_init me a) = Ret it /\ it_ptr it = elem_addr a (Z.of_nat k).
Proof.
  intros Ha Hk. destruct (advance_at me a Ha k (iter_init me a) 0 (iter_init_at me a Ha)) as (it & E & H).
  exists it. split; auto. eapply iter_at_ptr; eauto. rewrite Z.add_0_l in H. auto. lia.
Qed.

(* ---------------------------------------------- C24: supported conversions *)
Lemma sty_of_numeric s : (exists t, sty_of s = Some t) <-> (In s numeric_types \/ s = lit "b1").
Proof.
  unfold sty_of, numeric_types. cbn [map In].
  repeat match goal with |- context[bytes_eqb s ?x] => let E := fresh "E" in destruct (bytes_eqb s x) eqn:E; [apply bytes_eqb_eq in E|apply bytes_eqb_neq in E] end;
  split; intros H; try (eexists; reflexivity); try (destruct H; discriminate); intuition congruence.
Qed.

Lemma sty_of_b1 d : sty_of d = Some B1 <-> d = lit "b1".
Proof.
  unfold sty_of.
  repeat match goal with |- context[bytes_eqb d ?x] => let E := fresh "E" in destruct (bytes_eqb d x) eqn:E; [apply bytes_eqb_eq in E|apply bytes_eqb_neq in E] end;
  split; intros H; try discriminate; try congruence; try (subst; discriminate).
Qed.

Lemma convertible_spec me sd dd : convertible me sd dd <-> has_conversion (suffix sd) (suffix dd).
Proof.
  unfold convertible, has_conversion. set (d := suffix dd). set (s := suffix sd). clearbody d s.
  assert (Hc8 : ~ In (lit "c8") numeric_types) by (simpl; intuition discriminate).
  assert (Hc16 : ~ In (lit "c16") numeric_types) by (simpl; intuition discriminate).
  assert (Hb1 : ~ In (lit "b1") numeric_types) by (simpl; intuition discriminate).
  unfold cast_table.
  destruct (bytes_eqb d (lit "c8")) eqn:E1; [apply bytes_eqb_eq in E1|apply bytes_eqb_neq in E1].
  { subst d. destruct (bytes_eqb s (lit "c16")) eqn:E2; [apply bytes_eqb_eq in E2|apply bytes_eqb_neq in E2].
    - subst s. split; intros _; [auto|]. right. discriminate.
    - split; intros H.
      + destruct H as [H|H]; [auto|congruence].
      + destruct H as [H|[[H _]|[[_ H]|[H _]]]]; [auto|contradiction|contradiction|discriminate]. }
  destruct (bytes_eqb d (lit "c16")) eqn:E3; [apply bytes_eqb_eq in E3|apply bytes_eqb_neq in E3].
  { subst d. destruct (bytes_eqb s (lit "c8")) eqn:E2; [apply bytes_eqb_eq in E2|apply bytes_eqb_neq in E2].
    - subst s. split; intros _; [auto|]. right. discriminate.
    - split; intros H.
      + destruct H as [H|H]; [auto|congruence].
      + destruct H as [H|[[H _]|[[H _]|[_ H]]]]; [auto|contradiction|discriminate|contradiction]. }
  pose proof (sty_of_numeric d) as Nd. pose proof (sty_of_numeric s) as Ns. pose proof (sty_of_b1 d) as Bd.
  split.
  - intros [->|H]; [auto|]. right. left.
    destruct (sty_of d) as [td|] eqn:Ed; [|congruence].
    assert (td <> B1) by (intros ->; congruence).
    destruct (sty_of s) as [ts|] eqn:Es; [|destruct td; congruence].
    split; [|apply Ns; eauto].
    destruct Nd as [Nd _]. destruct (Nd (ex_intro _ td eq_refl)) as [|Hb]; auto.
    exfalso. apply H0. destruct Bd as [_ Bd]. specialize (Bd Hb). congruence.
  - intros [->|[[H1 H2]|[[H1 H2]|[H1 H2]]]]; auto; try congruence. right.
    destruct Ns as [_ Ns]. destruct (Ns H2) as [ts Es]. destruct Nd as [_ Nd]. destruct (Nd (or_introl H1)) as [td Ed].
    rewrite Ed, Es. assert (td <> B1). { intros ->. destruct Bd as [Bd _]. rewrite (Bd Ed) in H1. contradiction. }
    destruct td; congruence.
Qed.

(* ------------------------------------------------- C20, C21: byte orders *)
Lemma native_char me d : dt_native me d = true -> exists s, d = machine_char me :: s.
Proof. destruct d as [|c s]; simpl; [discriminate|]. intros H. apply byte_eqb_eq in H. subst. eauto. Qed.

Lemma dt_ok_char me d : dt_ok me d -> exists c s, d = c :: s /\ (c = "<"%byte \/ c = ">"%byte).
Proof.
  intros [H _]. destruct d as [|c s].
  - unfold dtype_normalize in H. simpl in H. discriminate.
  - exists c, s. split; auto. unfold dtype_normalize in H. cbv zeta in H.
    destruct (is_order_char c) eqn:E.
    + cbn [firstn] in H. destruct (Byte.eqb c "=" || Byte.eqb c "|") eqn:E2.
      * injection H as H1 H2. subst c. destruct me; auto.
      * unfold is_order_char in E. destruct (Byte.eqb c "<") eqn:A; [apply byte_eqb_eq in A; auto|].
        destruct (Byte.eqb c ">") eqn:B; [apply byte_eqb_eq in B; auto|].
        simpl in E. rewrite orb_comm in E. congruence.
    + cbn [firstn] in H. simpl in H. injection H as H1 H2. subst c. destruct me; discriminate.
Qed.

Lemma portable e1 e2 sizes w f b1 b2 p1 p2 a1 a2 um1 um2 o n vs :
  wblock e1 b1 sizes w -> wblock e2 b2 sizes w ->
  b_base b2 = b_base b1 -> b_dtype b2 = b_dtype b1 -> b_nmemb b2 = b_nmemb b1 ->
  w <= e_chunk e1 -> w <= e_chunk e2 -> w < 2 ^ 31 ->
  array_ok a1 -> array_ok a2 -> dt_ok (e_me e1) (a_dtype a1) -> dt_ok (e_me e2) (a_dtype a2) ->
  suffix (a_dtype a1) = suffix (b_dtype b1) -> suffix (a_dtype a2) = suffix (b_dtype b1) ->
  dt_native (e_me e1) (a_dtype a1) = true -> dt_native (e_me e2) (a_dtype a2) = true ->
  n = a_size a1 / b_nmemb b1 -> n = a_size a2 / b_nmemb b1 -> zlen vs = n * b_nmemb b1 ->
  holds um1 (elem_addr a1) (itemsize (e_me e1) (a_dtype a1)) 0 vs ->
  mapped um2 (elem_addr a2) (itemsize (e_me e2) (a_dtype a2)) 0 (zlen vs) ->
  elems_disjoint (elem_addr a2) (itemsize (e_me e2) (a_dtype a2)) 0 (zlen vs) ->
  ptr_at sizes p1 o -> ptr_at sizes p2 o -> o + n <= zsum sizes -> files_exist f (b_base b1) sizes ->
  exists f' b1' p1' um1' p2' um2' res,
    big_block_write e1 f b1 p1 a1 um1 = Ret (0, f', b1', p1', um1') /\
    big_block_read e2 f' b2 p2 a2 um2 = Ret (0, p2', um2') /\
    wrote um2 um2' (elem_addr a2) (itemsize (e_me e2) (a_dtype a2)) 0 res /\
    map (value (e_me e2)) res = map (value (e_me e1)) vs.
Proof.
  intros HW1 HW2 Hbase Hdt Hnm Hc1 Hc2 Hw31 Ha1 Ha2 Hd1 Hd2 Hs1 Hs2 Hna1 Hna2 Hn1 Hn2 Hlen Hh Hm2 Hdj2 Hp1 Hp2 Ho Hfe.
  set (g := fun v => reorder (e_me e1) (b_dtype b1) v).
  set (h := fun v => reorder (e_me e2) (b_dtype b1) v).
  destruct (write_spec e1 sizes w a1 f b1 p1 um1 o vs (map g vs) n) as (f' & p1' & um1' & E1 & F1 & P1 & S1); auto.
  { left. auto. }
  { congruence. }
  { apply Forall2_map_r. apply Forall_forall. intros v _.
    pose proof (same_suffix_converts (e_me e1) (a_dtype a1) (b_dtype b1) v (eq_sym Hs1)) as H.
    unfold reorder at 2 in H. rewrite Hna1 in H. exact H. }
  pose proof (wb_nmemb _ _ _ _ HW1) as Hnmp.
  assert (Hsz1 : 0 < a_size a1) by (rewrite (ao_size _ Ha1); apply zprod_pos; apply Ha1).
  assert (Hn0 : 0 <= n) by (rewrite Hn1; apply Z.div_pos; lia).
  assert (Hlo : zlen (map g vs) = n * b_nmemb b1) by (unfold zlen in *; rewrite map_length; lia).
  pose proof (wb_layout _ _ _ _ HW1) as HL. pose proof (wb_wpos _ _ _ _ HW1) as Hwp.
  assert (Hvw : Forall (fun v => length v = Z.to_nat (itemsize (e_me e1) (a_dtype a1))) vs) by (eapply holds_Forall; eauto).
  assert (Hi1 : itemsize (e_me e1) (a_dtype a1) = itemsize (e_me e1) (b_dtype b1)).
  { apply dt_same_width; auto. apply HW1. }
  assert (Hi2 : itemsize (e_me e2) (b_dtype b1) = itemsize (e_me e1) (b_dtype b1)).
  { pose proof (wb_w _ _ _ _ HW1) as W1. pose proof (wb_w _ _ _ _ HW2) as W2. rewrite Hdt, Hnm in W2.
    assert (HH : itemsize (e_me e2) (b_dtype b1) * b_nmemb b1 = itemsize (e_me e1) (b_dtype b1) * b_nmemb b1) by congruence.
    apply Z.mul_reg_r in HH; lia. }
  assert (How : Forall (fun v => length v = Z.to_nat (itemsize (e_me e1) (b_dtype b1))) (map g vs)).
  { apply Forall_forall. intros x Hx. apply in_map_iff in Hx. destruct Hx as (v & <- & Hv).
    unfold g. rewrite reorder_length, <- Hi1. rewrite Forall_forall in Hvw. auto. }
  assert (Hrw : Forall (fun v => length v = Z.to_nat w) (rows_of (b_nmemb b1) n (map g vs))).
  { eapply rows_elems_widths; eauto. }
  assert (Hrl : zlen (rows_of (b_nmemb b1) n (map g vs)) = n) by (unfold zlen; rewrite rows_of_length; lia).
  destruct (read_spec e2 sizes w a2 f' b2 p2 um2 o (map g vs) (map h (map g vs)) n) as (p2' & um2' & E2 & P2 & W2); auto.
  - left. congruence.
  - rewrite Hnm. auto.
  - rewrite Hnm. auto.
  - rewrite Hdt, Hi2. auto.
  - rewrite Hnm, Hbase. intros j v Hj. rewrite (stored_row_ext _ _ _ _ _ _ F1).
    apply (stored_puts_same (b_base b1) sizes w (rows_of (b_nmemb b1) n (map g vs)) f o j v); auto; try apply HL.
    + apply (pa_range _ _ _ Hp1).
    + rewrite Hrl. auto.
  - apply Forall2_map_r. apply Forall_forall. intros v _.
    pose proof (same_suffix_converts (e_me e2) (b_dtype b2) (a_dtype a2) v ltac:(congruence)) as H.
    unfold reorder at 1 in H. rewrite Hna2 in H. unfold h. rewrite <- Hdt. exact H.
  - rewrite Hlo. rewrite Hlen in Hm2. auto.
  - rewrite Hlo. rewrite Hlen in Hdj2. auto.
  - eexists f', _, p1', um1', p2', um2', _. split; [exact E1|]. split; [exact E2|]. split; [exact W2|].
    rewrite !map_map. apply map_ext. intros v. unfold g, h.
    destruct (wb_dt _ _ _ _ HW1) as [Hb1 Hbw].
    assert (Hc : exists c s, b_dtype b1 = c :: s /\ (c = "<"%byte \/ c = ">"%byte)).
    { clear -Hb1 Hbw. pose proof (dt_ok_char (e_me e1) (b_dtype b1) (conj Hb1 Hbw)) as H. exact H. }
    destruct Hc as (c & s & -> & Hc). unfold reorder, dt_native, value, machine_char.
    destruct (e_me e1), (e_me e2), Hc as [-> | ->]; simpl; rewrite ?rev_involutive; reflexivity.
Qed.

Lemma write_native_source e sizes w a f b p um o vs outs n :
  wblock e b sizes w -> w <= e_chunk e -> w < 2 ^ 31 ->
  array_ok a -> dt_ok (e_me e) (a_dtype a) ->
  convertible (e_me e) (a_dtype a) (b_dtype b) ->
  n = a_size a / b_nmemb b -> zlen vs = n * b_nmemb b ->
  holds um (elem_addr a) (itemsize (e_me e) (a_dtype a)) 0 vs ->
  dt_native (e_me e) (a_dtype a) = true ->
  Forall2 (converts (e_me e) (a_dtype a) (b_dtype b)) vs outs ->
  ptr_at sizes p o -> o + n <= zsum sizes -> files_exist f (b_base b) sizes ->
  exists f' b' p', big_block_write e f b p a um = Ret (0, f', b', p', um).
Proof.
  intros HW Hwc Hw31 Ha Hda Hconv Hn Hlen Hh Hna Hf Hp Ho Hfe.
  destruct (write_spec e sizes w a f b p um o vs outs n) as (f' & p' & um' & E & F & P & S); auto; [congruence|].
  unfold src_after in S. rewrite Hna in S. subst um'. eauto.
Qed.

Lemma write_foreign_source e sizes w a f b p um o vs outs n :
  wblock e b sizes w -> w <= e_chunk e -> w < 2 ^ 31 ->
  array_ok a -> dt_ok (e_me e) (a_dtype a) ->
  convertible (e_me e) (a_dtype a) (b_dtype b) ->
  n = a_size a / b_nmemb b -> zlen vs = n * b_nmemb b ->
  holds um (elem_addr a) (itemsize (e_me e) (a_dtype a)) 0 vs ->
  dt_native (e_me e) (a_dtype a) = false ->
  elems_disjoint (elem_addr a) (itemsize (e_me e) (a_dtype a)) 0 (zlen vs) ->
  Forall2 (converts (e_me e) (a_dtype a) (b_dtype b)) vs outs ->
  ptr_at sizes p o -> o + n <= zsum sizes -> files_exist f (b_base b) sizes ->
  exists f' b' p' um', big_block_write e f b p a um = Ret (0, f', b', p', um') /\
    wrote um um' (elem_addr a) (itemsize (e_me e) (a_dtype a)) 0 (map (@rev byte) vs).
Proof.
  intros HW Hwc Hw31 Ha Hda Hconv Hn Hlen Hh Hna Hd Hf Hp Ho Hfe.
  destruct (write_spec e sizes w a f b p um o vs outs n) as (f' & p' & um' & E & F & P & S); auto.
  unfold src_after in S. rewrite Hna in S. eexists f', _, p', um'. split; [exact E|]. exact S.
Qed.
