(* Proofs about histories of attribute operations. *)
From Coq.Strings Require Import Byte String.
From Coq Require Import List ZArith Lia Bool ZifyBool ZifyNat Sorted Permutation.
From Verif Require Import Base BaseFacts Dtype Cast Array FS Fmt Attr Block Spec AttrSpec OpenSpec SessSpec
  SeekFacts FSFacts HeaderFacts DtypeFacts AttrFacts TextFacts OpenFacts ReopenFacts.
Import ListNotations.
Open Scope Z_scope.
Local Open Scope out_scope.
Ltac Zify.zify_post_hook ::= Z.div_mod_to_equations.

Definition total (m : list entry) : Z := zsum (map esize m).

Lemma esize_pos e : 0 < esize e.
Proof. unfold esize. pose proof (zlen_nonneg (av_data (snd e))). pose proof (zlen_nonneg (fst e)). lia. Qed.
Lemma total_perm m1 m2 : Permutation m1 m2 -> total m1 = total m2.
Proof. unfold total, zsum. induction 1; simpl; lia. Qed.
Lemma total_edrop k m : total (edrop k m) <= total m.
Proof.
  unfold total, zsum, edrop. induction m as [|e m IH]; simpl; [lia|]. pose proof (esize_pos e).
  destruct (negb _); simpl; lia.
Qed.
Lemma edrop_sorted k m : esorted m -> esorted (edrop k m).
Proof.
  induction 1 as [|e m Hs IH Hf]; cbn [edrop filter]; [constructor|]. destruct (negb _); [|exact IH].
  constructor; auto. apply Forall_forall. intros x Hx. apply filter_In in Hx. rewrite Forall_forall in Hf. apply Hf. tauto.
Qed.

Lemma put_is m m' name v : esorted m -> esorted m' ->
  (forall k, assoc k m' = if bytes_eqb k name then Some v else assoc k m) ->
  m' = eins (name, v) (edrop name m).
Proof.
  intros H H' Ha. apply esorted_ext; auto.
  - apply eins_sorted; [|apply edrop_sorted; auto]. apply assoc_none. cbn [fst]. rewrite assoc_edrop, bytes_eqb_refl. auto.
  - intros k. rewrite Ha. rewrite (assoc_perm k (eins (name, v) (edrop name m)) ((name, v) :: edrop name m)).
    + cbn [assoc]. rewrite assoc_edrop. destruct (bytes_eqb k name); auto.
    + eapply Permutation_NoDup; [apply Permutation_map, Permutation_sym, eins_perm|]. cbn [map fst]. constructor.
      * apply assoc_none. rewrite assoc_edrop, bytes_eqb_refl. auto.
      * apply esorted_nodup, edrop_sorted. auto.
    + apply eins_perm.
Qed.

Lemma drop_is m m' name : esorted m -> esorted m' ->
  (forall k, assoc k m' = if bytes_eqb k name then None else assoc k m) -> m' = edrop name m.
Proof. intros H H' Ha. apply esorted_ext; auto using edrop_sorted. intros k. rewrite Ha, assoc_edrop. auto. Qed.

Lemma put_total m m' name v : esorted m -> esorted m' ->
  (forall k, assoc k m' = if bytes_eqb k name then Some v else assoc k m) ->
  total m' <= total m + esize (name, v) /\ forall P : entry -> Prop, P (name, v) -> Forall P m -> Forall P m'.
Proof.
  intros H H' Ha. rewrite (put_is m m' name v) by auto. split.
  - rewrite (total_perm _ _ (eins_perm _ _)). pose proof (total_edrop name m). unfold total, zsum in *. simpl. lia.
  - intros P Hp Hm. rewrite Forall_forall in *. intros x Hx. apply (Permutation_in _ (eins_perm _ _)) in Hx.
    destruct Hx as [<-|Hx]; auto. apply Hm. unfold edrop in Hx. apply filter_In in Hx. tauto.
Qed.

Lemma word_tok t : word t -> tok t.
Proof.
  intros [Hn H]. split; auto. eapply Forall_impl; [|exact H]. intros c (H1 & H2 & H3 & H4). split; [|auto].
  unfold isblank. apply byte_eqb_neq in H1, H2. rewrite H1, H2. reflexivity.
Qed.
Lemma durable_savable me name v : durable me name v -> savable me (name, v).
Proof. intros []. constructor; simpl; auto using word_tok. Qed.

(* ------------------------------------------------------- invariant *)
Record sinv (e : env) (b0 : block) (sizes : list Z) (B : Z) (st : fs * block) (a : sstate) (m d : list entry) (ts : list bytes) : Prop := {
  iv_ok : as_ok (e_me e) (b_attrset (snd st)) m;
  iv_live : forall k, assoc k m = live a k;
  iv_sv : Forall (savable (e_me e)) m;
  iv_tot : total m <= B;
  iv_used : as_bufused (b_attrset (snd st)) <= B;
  iv_dso : esorted d;
  iv_saved : forall k, assoc k d = saved a k;
  iv_dsv : Forall (savable (e_me e)) d;
  iv_dle : Forall (line_entry_ok (e_me e)) d;
  iv_dtot : total d <= B;
  iv_ts : Forall clean ts;
  iv_tl : length ts = length d;
  iv_file : fs_get (fst st) (attr2_path (b_base b0)) = Some (File (text_lines d ts));
  iv_pend : as_dirty (b_attrset (snd st)) = pending a;
  iv_tab : same_table b0 (snd st);
  iv_lay : has_layout (snd st) sizes;
  iv_clean : b_dirty (snd st) = false;
  iv_hdr : fs_get (fst st) (header_path (b_base b0)) = Some (File (table_text b0 sizes));
  iv_no1 : fs_get (fst st) (attr1_path (b_base b0)) = None;
  iv_dir : block_dir (fst st) (b_base b0)
}.

Lemma same_table_attrs b0 b s : same_table b0 b -> same_table b0 (set_attrs b s).
Proof. intros []. constructor; auto. Qed.
Lemma layout_attrs b sizes s : has_layout b sizes -> has_layout (set_attrs b s) sizes.
Proof. intros []. constructor; auto. Qed.
Lemma same_table_trans a b c : same_table a b -> same_table b c -> same_table a c.
Proof. intros [] []. constructor; congruence. Qed.

Lemma table_text_same b0 b sizes : has_layout b0 sizes -> has_layout b sizes -> same_table b0 b ->
  table_text b sizes = table_text b0 sizes /\ read_back b sizes = read_back b0 sizes.
Proof.
  intros L0 L S. destruct S. rewrite (hl_Nfile _ _ L0), (hl_Nfile _ _ L) in st_cks.
  replace (Z.to_nat (zlen sizes)) with (length sizes) in st_cks by (unfold zlen; lia).
  unfold table_text, read_back. rewrite (combine_firstn_r sizes (b_fchecksum b)), (combine_firstn_r sizes (b_fchecksum b0)).
  rewrite st_dtype, st_nmemb, st_cks. auto.
Qed.

Section Sess.
  Variables (e : env) (b0 : block) (sizes : list Z).
  Hypothesis Hg : g_clean e.
  Hypothesis Hlay0 : has_layout b0 sizes.
  Hypothesis Hty : header_type (b_dtype b0).
  Hypothesis Hnm : 0 <= b_nmemb b0 < 2 ^ 31.
  Hypothesis HN : zlen sizes <= 2 ^ 24.
  Hypothesis Hbn : block_name (b_base b0).

  Lemma sess_flush B f b a m d ts : sinv e b0 sizes B (f, b) a m d ts ->
    exists f' b' d' ts', big_block_flush e f b = Ret (0, f', b') /\ sinv e b0 sizes B (f', b') (sflush a) m d' ts'.
  Proof.
    intros I. pose proof (iv_tab _ _ _ _ _ _ _ _ _ I) as St. cbn [fst snd] in St.
    pose proof (st_base _ _ St) as Eb.
    destruct (flush_spec e f b sizes m) as (f' & ts' & E & (G1 & G2 & O) & Hd' & Hts).
    { apply (iv_lay _ _ _ _ _ _ _ _ _ I). } { rewrite <- Eb. apply (iv_dir _ _ _ _ _ _ _ _ _ I). }
    { apply (iv_ok _ _ _ _ _ _ _ _ _ I). } { intros _. split; auto. apply (iv_sv _ _ _ _ _ _ _ _ _ I). }
    rewrite <- Eb in *. destruct I. cbn [fst snd] in *.
    exists f', (set_attrs (set_bdirty b false) (set_dirty (b_attrset b) false)).
    rewrite iv_clean0 in G1.
    assert (Hno : fs_get f' (attr1_path (b_base b0)) = None).
    { rewrite O; auto. intros [X|X]; [symmetry in X; revert X; apply header_not_attr1|revert X; apply attr1_not_attr2]. }
    destruct (as_dirty (b_attrset b)) eqn:Ed.
    - destruct (Hts eq_refl) as [Hl Hc]. exists m, ts'. split; [exact E|].
      unfold sflush. rewrite <- iv_pend0. constructor; cbn [fst snd live saved pending]; auto.
      + apply as_ok_dirty. auto.
      + apply iv_ok0.
      + eapply rep_sizes. apply iv_ok0.
      + destruct St. constructor; auto.
      + destruct iv_lay0. constructor; auto.
      + congruence.
    - exists d, ts. split; [exact E|]. unfold sflush. rewrite <- iv_pend0.
      constructor; cbn [fst snd live saved pending]; auto.
      + apply as_ok_dirty. auto.
      + congruence.
      + destruct St. constructor; auto.
      + destruct iv_lay0. constructor; auto.
      + congruence.
  Qed.

  Lemma sess_step B st a m d ts o : sinv e b0 sizes B st a m d ts -> sop_ok (e_me e) o ->
    B + sop_size (e_me e) o <= 2 ^ 61 -> 0 <= sop_size (e_me e) o ->
    exists st' m' d' ts', sstep e st o = Ret (fst (sspec (e_me e) a o), st') /\
      sinv e b0 sizes (B + sop_size (e_me e) o) st' (snd (sspec (e_me e) a o)) m' d' ts'.
  Proof.
    intros I Ho HB Hp. destruct st as [f b]. destruct o as [name um data dtype n|name| |]; cbn [sstep sspec sop_size sop_ok] in *.
    - destruct Ho as [Hok Hdu]. pose proof Hok as (Hnul & Hw & Hn & H31 & v & Hv).
      destruct (has_blank name) eqn:Eb.
      + rewrite set_blank by auto. cbn [bind fst snd]. eexists _, m, d, ts. split; [reflexivity|].
        destruct I. constructor; cbn [fst snd] in *; auto; try lia.
        * apply as_ok_dirty. auto.
        * cbn [set_attrs b_attrset set_dirty as_bufused]. lia.
        * apply same_table_attrs; auto.
        * apply layout_attrs; auto.
      + pose proof (iv_ok _ _ _ _ _ _ _ _ _ I) as Iok. pose proof (iv_used _ _ _ _ _ _ _ _ _ I) as Iu. cbn [snd] in Iok, Iu.
        cbn [aop_size] in HB, Hp.
        destruct (set_spec (e_realloc e) (e_me e) (b_attrset b) m name um data dtype n v) as (s' & um' & m' & E & A & D & C & U & _); auto; [lia|].
        rewrite E. cbn [bind fst snd]. eexists _, m', d, ts. split; [reflexivity|].
        assert (Esv : sval (e_me e) um data dtype n = mkAval (dtype_normalize (e_me e) dtype) n v) by (unfold sval; rewrite Hv; auto).
        specialize (Hdu eq_refl). rewrite Esv in Hdu.
        destruct (put_total m m' name (mkAval (dtype_normalize (e_me e) dtype) n v)) as [T1 T2]; auto.
        { apply Iok. } { apply A. }
        pose proof (load_length _ _ _ _ Hv) as Lv.
        assert (Hes : esize (name, mkAval (dtype_normalize (e_me e) dtype) n v) = itemsize (e_me e) dtype * n + zlen name + 1).
        { unfold esize. cbn [fst snd av_data]. unfold zlen. rewrite Lv. nia. }
        destruct I. constructor; cbn [fst snd live saved pending set_attrs b_attrset aop_size] in *; auto; try lia.
        * intros k. rewrite C. unfold with_attr. rewrite Esv, iv_live0. auto.
        * apply T2; auto. apply durable_savable. auto.
        * apply same_table_attrs; auto.
        * apply layout_attrs; auto.
    - pose proof (iv_ok _ _ _ _ _ _ _ _ _ I) as Iok. cbn [snd] in Iok.
      pose proof (remove_spec (e_me e) (b_attrset b) m name Iok) as Hr.
      rewrite (iv_live _ _ _ _ _ _ _ _ _ I) in Hr. destruct (live a name) eqn:El.
      + destruct Hr as (l' & E & A). rewrite E. cbn [bind fst snd]. eexists _, (edrop name m), d, ts. split; [reflexivity|].
        pose proof (total_edrop name m). destruct I. constructor; cbn [fst snd live saved pending set_attrs b_attrset] in *; auto; try lia.
        * intros k. rewrite assoc_edrop, iv_live0. auto.
        * rewrite Forall_forall in *. intros x Hx. unfold edrop in Hx. apply filter_In in Hx. apply iv_sv0. tauto.
        * simpl. lia.
        * apply same_table_attrs; auto.
        * apply layout_attrs; auto.
      + rewrite Hr. cbn [bind fst snd]. eexists _, m, d, ts. split; [reflexivity|].
        rewrite Z.add_0_r. destruct I. constructor; cbn [fst snd set_attrs b_attrset] in *; auto.
        * apply same_table_attrs; auto.
        * apply layout_attrs; auto.
    - destruct (sess_flush B f b a m d ts I) as (f' & b' & d' & ts' & E & I'). rewrite E. cbn [bind fst snd].
      eexists _, m, d', ts'. split; [reflexivity|]. rewrite Z.add_0_r. exact I'.
    - destruct (sess_flush B f b a m d ts I) as (f' & b' & d' & ts' & E & I'). unfold big_block_close. rewrite E. cbn [bind].
      pose proof (st_base _ _ (iv_tab _ _ _ _ _ _ _ _ _ I)) as Eb. cbn [snd] in Eb. rewrite <- Eb.
      destruct I'. cbn [fst snd] in *.
      destruct (open_spec e f' b0 sizes d' ts' Hlay0 Hty Hnm HN Hbn iv_no2 (or_intror iv_file0) iv_dso0 iv_dsv0 iv_dle0 iv_ts0 iv_tl0 ltac:(unfold total in *; lia) _ iv_hdr0) as [Hop _].
      destruct (Hop (parse_table b0 sizes Hlay0 Hty Hnm HN)) as (b2 & E2 & S2 & L2 & A2 & D2 & D2' & U2).
      rewrite E2. cbn [bind fst snd]. eexists _, d', d', ts'. split; [reflexivity|]. rewrite Z.add_0_r.
      constructor; cbn [fst snd live saved pending]; auto. unfold total in *. lia.
  Qed.

  Lemma sess_run : forall os B st a m d ts, sinv e b0 sizes B st a m d ts -> Forall (sop_ok (e_me e)) os ->
    B + zsum (map (sop_size (e_me e)) os) <= 2 ^ 61 ->
    exists st' m' d' ts' B', srun e st os = Ret (fst (sspecs (e_me e) a os), st') /\
      sinv e b0 sizes B' st' (snd (sspecs (e_me e) a os)) m' d' ts' /\ B' <= 2 ^ 61.
  Proof.
    induction os as [|o os IH]; intros B st a m d ts I Ho HB; cbn [srun sspecs].
    - exists st, m, d, ts, B. split; [reflexivity|]. split; [exact I|]. cbn [map zsum fold_right] in HB. lia.
    - inversion Ho as [|? ? Ho1 Ho2]; subst. cbn [map zsum fold_right] in HB.
      change (fold_right Z.add 0 (map (sop_size (e_me e)) os)) with (zsum (map (sop_size (e_me e)) os)) in HB.
      assert (Hsz : forall o, sop_ok (e_me e) o -> 0 <= sop_size (e_me e) o).
      { intros [nm um da dt n|nm| |] Hx; cbn [sop_size]; try lia. destruct Hx as [Hx _]. apply aop_size_nonneg in Hx. exact Hx. }
      assert (0 <= zsum (map (sop_size (e_me e)) os)).
      { clear - Ho2 Hsz. unfold zsum. induction Ho2 as [|o l Hx Hl IHl]; cbn [map fold_right]; [lia|]. pose proof (Hsz _ Hx). lia. }
      destruct (sess_step B st a m d ts o I Ho1) as (st1 & m1 & d1 & ts1 & E & I1); [lia|auto|].
      rewrite E. cbn [bind]. destruct (sspec (e_me e) a o) as [rc a1]. cbn [fst snd] in *.
      destruct (IH _ st1 a1 m1 d1 ts1 I1 Ho2) as (st2 & m2 & d2 & ts2 & B2 & E2 & I2 & HB2); [lia|].
      rewrite E2. cbn [bind]. destruct (sspecs (e_me e) a1 os) as [rcs a2]. cbn [fst snd] in *.
      exists st2, m2, d2, ts2, B2. auto.
  Qed.
End Sess.

(* A new block starts with no attributes. *)
Lemma sess_create e f base d nmemb sizes : block_name base -> block_dir f base -> layout_ok sizes ->
  fs_get f (attr1_path base) = None ->
  exists f' b, big_block_create e f base (Some d) nmemb (zlen sizes) sizes = Ret (f', Some b) /\
    has_layout b sizes /\ b_dtype b = dtype_normalize (e_me e) d /\ b_nmemb b = nmemb /\ b_base b = base /\
    sinv e b sizes 0 (f', b) sstart [] [] [].
Proof.
  intros Hn Hd Hl Ha. destruct (create_spec e f base d nmemb sizes Hn Hd Hl)
    as (f' & b & E & Lay & Edt & Enm & Eb & Hok & Hdi & Hadi & Hck & Hd' & Hh & Ha2 & Hdata & O).
  exists f', b. do 5 (split; [assumption|]).
  assert (Hu : as_bufused (b_attrset b) = 0).
  { clear - E Hok. unfold big_block_create in E. destruct (create_internal e f base (Some d) nmemb (zlen sizes) sizes) as [[f1 [b1|]]|u|] eqn:Ec; cbn [bind] in E; try discriminate.
    destruct (truncate_files _ _ _ _) as [rc f2]. destruct (negb (rc =? 0)); [discriminate|]. injection E as _ <-.
    unfold create_internal in Ec. destruct (has_blank base); [discriminate|].
    assert (Hfl : forall bb f0 rc f3 b3, as_list (b_attrset bb) = [] -> big_block_flush e f0 bb = Ret (rc, f3, b3) -> as_bufused (b_attrset b3) = as_bufused (b_attrset bb)).
    { clear. intros bb f0 rc f3 b3 Hl E. unfold big_block_flush in E.
      assert (K : forall b1 f1, as_list (b_attrset b1) = [] -> (if as_dirty (b_attrset b1) then
          match fopen_w f1 (attr2_path (b_base b1)) with
          | None => Ret (-1, f1, set_attrs b1 (set_dirty (b_attrset b1) false))
          | Some f2 => '(img, s') <- attr_lines (e_fg e) (e_me e) (b_attrset b1) (as_list (b_attrset b1)) ;;
             Ret (0, fs_set f2 (attr2_path (b_base b1)) (File img), set_attrs b1 (set_dirty s' false)) end
          else Ret (0, f1, b1)) = Ret (rc, f3, b3) -> as_bufused (b_attrset b3) = as_bufused (b_attrset b1)).
      { intros b1 f1 Hl1 E1. destruct (as_dirty (b_attrset b1)); [|injection E1 as _ _ <-; auto].
        destruct (fopen_w f1 (attr2_path (b_base b1))); [|injection E1 as _ _ <-; auto].
        rewrite Hl1 in E1. cbn [attr_lines bind] in E1. injection E1 as _ _ <-. reflexivity. }
      destruct (b_dirty bb).
      - destruct (fopen_w f0 (header_path (b_base bb))).
        + destruct (header_image bb); cbn [bind] in E; try discriminate. change (negb (0 =? 0)) with false in E. cbv iota in E.
          apply K in E; auto.
        + cbn [bind] in E. change (negb (-1 =? 0)) with true in E. cbv iota in E. injection E as _ _ <-. auto.
      - cbn [bind] in E. change (negb (0 =? 0)) with false in E. cbv iota in E. apply K in E; auto. }
    destruct (is_meta (strdup base)).
    - destruct (big_block_flush e f _) as [[[rc1 f3] b3]|u|] eqn:Ef; cbn [bind] in Ec; try discriminate.
      destruct (negb (rc1 =? 0)); [discriminate|]. injection Ec as _ <-. apply Hfl in Ef; auto.
    - destruct (_ <? -1); [discriminate|]. destruct (_ || _); [discriminate|].
      destruct (big_block_flush e f _) as [[[rc1 f3] b3]|u|] eqn:Ef; cbn [bind] in Ec; try discriminate.
      destruct (negb (rc1 =? 0)); [discriminate|]. injection Ec as _ <-. apply Hfl in Ef; auto. }
  constructor; cbn [fst snd]; auto; rewrite ?Eb; auto; try (constructor; fail); try (unfold total; simpl; lia); try lia.
  - constructor; auto.
  - rewrite O; auto. intros [X|[X|(j & Hj & X)]]; [symmetry in X; revert X; apply header_not_attr1|revert X; apply attr1_not_attr2|symmetry in X; revert X; apply data_not_attr1; lia].
Qed.

(* ------------------------------------------------------- results *)
Lemma sessions e f base d nmemb sizes os : g_clean e ->
  block_name base -> block_dir f base -> layout_ok sizes -> fs_get f (attr1_path base) = None ->
  header_type (dtype_normalize (e_me e) d) -> 0 <= nmemb < 2 ^ 31 -> zlen sizes <= 2 ^ 24 ->
  Forall (sop_ok (e_me e)) os -> zsum (map (sop_size (e_me e)) os) <= 2 ^ 61 ->
  exists f0 b0 f' b', big_block_create e f base (Some d) nmemb (zlen sizes) sizes = Ret (f0, Some b0) /\
    srun e (f0, b0) os = Ret (fst (sspecs (e_me e) sstart os), (f', b')) /\
    (forall name, attr_shows (b_attrset b') name (live (snd (sspecs (e_me e) sstart os)) name)) /\
    (exists names, attr_names (b_attrset b') = Ret names /\ sorted_names names /\
       forall name, In name names <-> live (snd (sspecs (e_me e) sstart os)) name <> None) /\
    same_table b0 b' /\ has_layout b' sizes.
Proof.
  intros Hg Hn Hd Hl Ha Ht Hnm HN Hos Hsz.
  destruct (sess_create e f base d nmemb sizes Hn Hd Hl Ha) as (f0 & b0 & E & Lay & Edt & Enm & Eb & I).
  destruct (sess_run e b0 sizes Hg Lay) with (os := os) (B := 0) (st := (f0, b0)) (a := sstart) (m := @nil entry) (d := @nil entry) (ts := @nil bytes)
    as (st' & m' & d' & ts' & B' & E' & I' & _); auto; try (rewrite ?Edt, ?Enm, ?Eb; auto; fail); try lia.
  destruct st' as [f' b']. exists f0, b0, f', b'. split; [exact E|]. split; [exact E'|].
  destruct I'. cbn [fst snd] in *. split.
  { intros name. rewrite <- iv_live0. apply ok_shows with (me := e_me e). auto. }
  split; [|split; auto].
  exists (map fst m'). split; [eapply ok_names; eauto|]. split; [apply esorted_sorted_names; apply iv_ok0|].
  intros name. rewrite <- iv_live0. pose proof (assoc_none name m') as Hx.
  destruct (assoc name m'); split; intros; try discriminate; try congruence.
  - destruct (in_dec (list_eq_dec Byte.byte_eq_dec) name (map fst m')); auto. apply Hx in n. discriminate.
  - exfalso. apply (proj2 Hx); auto.
Qed.
