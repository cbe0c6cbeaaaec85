(* Proofs about bigfile-copy. *)
From Coq.Strings Require Import Byte String.
From Coq Require Import List ZArith Lia Bool ZifyBool ZifyNat.
From Verif Require Import Base BaseFacts Dtype Cast Array FS Fmt Attr Block File Split Spec AttrSpec OpenSpec SessSpec HistSpec FileSpec Py PySpec Util UtilSpec
  FSFacts DtypeFacts ArrayFacts SeekFacts ConvFacts WriteFacts ReadFacts IOFacts AttrFacts AttrFileFacts TextFacts HeaderFacts TableFacts OpenFacts ReopenFacts SessFacts HistFacts AggFacts MpiFacts StepFacts MiscFacts
  FileFacts FrameFacts RecNewFacts PyFacts PyNewFacts UtilFacts.
Import ListNotations.
Open Scope Z_scope.
Local Open Scope out_scope.
Ltac Zify.zify_post_hook ::= Z.div_mod_to_equations.

(* ------------------------------------------------------------------ which files are written *)
(* everything but the header and the data files is kept *)
Definition dframe (base : bytes) (f f' : fs) : Prop :=
  only_changes f f' (fun p => p = header_path base \/ exists i, 0 <= i /\ p = data_path base i).
(* everything but the header and the attributes is kept *)
Definition mframe (base : bytes) (f f' : fs) : Prop :=
  only_changes f f' (fun p => p = header_path base \/ p = attr2_path base).

Lemma dframe_refl base f : dframe base f f. Proof. intros p _. reflexivity. Qed.
Lemma dframe_trans base f g h : dframe base f g -> dframe base g h -> dframe base f h.
Proof. intros A B p Hp. rewrite (B p Hp). auto. Qed.
Lemma mframe_refl base f : mframe base f f. Proof. intros p _. reflexivity. Qed.
Lemma mframe_trans base f g h : mframe base f g -> mframe base g h -> mframe base f h.
Proof. intros A B p Hp. rewrite (B p Hp). auto. Qed.
#[local] Hint Resolve dframe_refl mframe_refl : core.
Lemma dframe_set base f i n : 0 <= i -> dframe base f (fs_set f (data_path base i) n).
Proof. intros Hi q Hq. apply fs_get_set_other. intros ->. apply Hq. right. eauto. Qed.
Lemma open_w_only f p f' : fopen_w f p = Some f' -> only_changes f f' (fun q => q = p).
Proof.
  unfold fopen_w. destruct (fs_get f p) as [[|c]|]; [discriminate| |destruct (is_dir f (parent p)); [|discriminate]]; intros [= <-] q Hq; apply fs_get_set_other; auto.
Qed.
Lemma dframe_frames base f f' : dframe base f f' -> frames base f f'.
Proof. intros H p Hp. apply H. intros [X|X]; apply Hp; [left|right; right]; exact X. Qed.
Lemma mframe_frames base f f' : mframe base f f' -> frames base f f'.
Proof. intros H p Hp. apply H. intros [X|X]; apply Hp; [left|right; left]; exact X. Qed.
Lemma dframe_attrs base f f' : dframe base f f' -> fs_get f' (attr1_path base) = fs_get f (attr1_path base) /\ fs_get f' (attr2_path base) = fs_get f (attr2_path base).
Proof.
  intros H. split; apply H; intros [X|(i & Hi & X)].
  - symmetry in X. revert X. apply header_not_attr1.
  - symmetry in X. revert X. apply data_not_attr1. lia.
  - symmetry in X. revert X. apply header_not_attr2.
  - symmetry in X. revert X. apply data_not_attr2. lia.
Qed.

Lemma flush_dframe e f b rc f' b' : as_dirty (b_attrset b) = false -> big_block_flush e f b = Ret (rc, f', b') -> dframe (b_base b) f f'.
Proof.
  intros Ha H. unfold big_block_flush in H. apply bind_ret in H. destruct H as ([[rc1 f1] b1] & H1 & H2).
  assert (F1 : dframe (b_base b) f f1 /\ b_attrset b1 = b_attrset b).
  { destruct (b_dirty b).
    - destruct (fopen_w f (header_path (b_base b))) as [fa|] eqn:E; [|injection H1 as <- <- <-; auto].
      apply bind_ret in H1. destruct H1 as (img & _ & H1). injection H1 as <- <- <-. split; [|reflexivity].
      intros p Hp. rewrite fs_get_set_other by (intros ->; apply Hp; left; auto). apply (open_w_only _ _ _ E). intros ->. apply Hp. left. auto.
    - injection H1 as <- <- <-. auto. }
  destruct F1 as [F1 E1]. destruct (negb (rc1 =? 0)); [injection H2 as <- <- <-; auto|]. rewrite E1, Ha in H2. injection H2 as <- <- <-. auto.
Qed.
Lemma flush_mframe e f b rc f' b' : big_block_flush e f b = Ret (rc, f', b') -> mframe (b_base b) f f' /\ b_base b' = b_base b.
Proof.
  intros H. unfold big_block_flush in H. apply bind_ret in H. destruct H as ([[rc1 f1] b1] & H1 & H2).
  assert (F1 : mframe (b_base b) f f1 /\ b_base b1 = b_base b).
  { destruct (b_dirty b).
    - destruct (fopen_w f (header_path (b_base b))) as [fa|] eqn:E; [|injection H1 as <- <- <-; auto].
      apply bind_ret in H1. destruct H1 as (img & _ & H1). injection H1 as <- <- <-. split; [|reflexivity].
      intros p Hp. rewrite fs_get_set_other by (intros ->; apply Hp; left; auto). apply (open_w_only _ _ _ E). intros ->. apply Hp. left. auto.
    - injection H1 as <- <- <-. auto. }
  destruct F1 as [F1 E1]. destruct (negb (rc1 =? 0)); [injection H2 as <- <- <-; auto|].
  destruct (as_dirty (b_attrset b1)); [|injection H2 as <- <- <-; auto].
  destruct (fopen_w f1 (attr2_path (b_base b1))) as [f2|] eqn:E; [|injection H2 as <- <- <-; auto].
  apply bind_ret in H2. destruct H2 as ([img s'] & _ & H2). injection H2 as <- <- <-. split; [|exact E1]. rewrite E1 in *.
  eapply mframe_trans; [exact F1|]. intros p Hp. rewrite fs_get_set_other by (intros ->; apply Hp; right; auto). apply (open_w_only _ _ _ E). intros ->. apply Hp. right. auto.
Qed.
Lemma truncate_dframe base n : forall f i rc f', 0 <= i -> truncate_files f base i n = (rc, f') -> dframe base f f'.
Proof.
  induction n as [|n IH]; intros f i rc f' Hi H; cbn [truncate_files] in H; [injection H as <- <-; auto|].
  destruct (fopen_w f (data_path base i)) as [f1|] eqn:E; [|injection H as <- <-; auto].
  eapply dframe_trans; [|eapply IH; [|exact H]; lia]. intros p Hp. apply (open_w_only _ _ _ E). intros ->. apply Hp. right. eauto.
Qed.
Lemma loop_dframe e ca cs fuel : forall f b p cb um ai n rc f' b' p' um',
  write_loop e f b p cb ca um ai cs n fuel = Ret (rc, f', b', p', um') -> dframe (b_base b) f f'.
Proof.
  induction fuel as [|fuel IH]; intros f b p cb um ai n rc f' b' p' um' H; cbn [write_loop] in H; [discriminate|].
  destruct (negb (0 <? n)); [injection H as <- <- <- <- <-; auto|].
  apply bind_ret in H. destruct H as (eof & _ & H). destruct eof; [injection H as <- <- <- <- <-; auto|].
  apply bind_ret in H. destruct H as (c & _ & H).
  apply bind_ret in H. destruct H as ([[[[rc1 cb1] x] um1] ai1] & _ & H).
  destruct (negb (rc1 =? 0)); [injection H as <- <- <- <- <-; auto|].
  apply bind_ret in H. destruct H as (l & _ & H).
  apply bind_ret in H. destruct H as (old & Hold & H).
  apply bind_ret in H. destruct H as (cks & _ & H).
  assert (Hid : 0 <= p_fileid p).
  { unfold znth, or_ub in Hold. destruct (p_fileid p <? 0) eqn:E; [discriminate|lia]. }
  destruct (fopen_rp f _) as [cont|]; [|injection H as <- <- <- <- <-; auto].
  destruct (p_roffset p * felsize e b <? 0); [injection H as <- <- <- <- <-; auto|].
  apply bind_ret in H. destruct H as ([rc2 p1] & _ & H).
  pose proof (dframe_set (b_base b) f (p_fileid p) (File (pwrite cont (Z.to_nat (p_roffset p * felsize e b)) l)) Hid) as F.
  destruct (negb (rc2 =? 0)); [injection H as <- <- <- <- <-; auto|].
  apply IH in H. cbn [set_checksums b_base] in H. eapply dframe_trans; eauto.
Qed.
Lemma write_dframe e f b p a um rc f' b' p' um' : big_block_write e f b p a um = Ret (rc, f', b', p', um') -> dframe (b_base b) f f'.
Proof.
  unfold big_block_write, big_block_write_fuel. intros H. destruct (a_size a =? 0); [injection H as <- <- <- <- <-; auto|].
  destruct (2 ^ 31 <=? _); [discriminate|]. destruct (_ =? 0); [discriminate|].
  apply bind_ret in H. destruct H as (ca & _ & H). apply bind_ret in H. destruct H as (o & _ & H).
  destruct (_ <? _); [injection H as <- <- <- <- <-; auto|].
  apply loop_dframe in H. exact H.
Qed.
Lemma hstep_dframe e f b op x f' b' : 0 <= b_Nfile b -> as_dirty (b_attrset b) = false -> hstep e (f, b) op = Ret (x, (f', b')) -> dframe (b_base b) f f'.
Proof.
  intros Hn Ha H. destruct op as [o a um|o a um|gs| |]; cbn [hstep] in H.
  - apply bind_ret in H. destruct H as ([rc p] & _ & H). destruct (negb (rc =? 0)); [injection H as <- <- <-; auto|].
    apply bind_ret in H. destruct H as ([[[[rc2 f2] b2] p2] um2] & H1 & H). injection H as <- <- <-. eapply write_dframe; eauto.
  - apply bind_ret in H. destruct H as ([rc p] & _ & H). destruct (negb (rc =? 0)); [injection H as <- <- <-; auto|].
    apply bind_ret in H. destruct H as ([[rc2 p2] um2] & H1 & H). injection H as <- <- <-. auto.
  - apply bind_ret in H. destruct H as ([[rc f2] b2] & H1 & H). injection H as <- <- <-.
    unfold big_block_grow in H1. apply bind_ret in H1. destruct H1 as (b1 & _ & H2). destruct (truncate_files _ _ _ _) as [rc1 f1] eqn:E. injection H2 as <- <- <-.
    eapply truncate_dframe; eauto.
  - apply bind_ret in H. destruct H as ([[rc f2] b2] & H1 & H). injection H as <- <- <-. eapply flush_dframe; eauto.
  - apply bind_ret in H. destruct H as ([rc f2] & H1 & H). unfold big_block_close in H1. apply bind_ret in H1. destruct H1 as ([[rc1 f1] b1] & H1 & H2). injection H2 as <- <-.
    apply flush_dframe in H1; [|exact Ha]. apply bind_ret in H. destruct H as (r & _ & H). destruct r; injection H as <- <- <-; auto.
Qed.

(* ------------------------------------------------------------------ a block and its attributes on disk *)
Section Stored.
Variables (e : env) (base dt : bytes) (nmemb : Z).
Let isz := itemsize (e_me e) dt.
Let w := isz * nmemb.
Hypothesis Hg : g_clean e.
Hypothesis Hbn : block_name base.
Hypothesis Hty : header_type dt.
Hypothesis Hnm31 : 0 < nmemb < 2 ^ 31.
Hypothesis Hwc : w <= e_chunk e.
Hypothesis Hw31 : w < 2 ^ 31.
Notation inv := (hinv e base dt nmemb w).

(* the handle b is fresh, and its attributes are those of the file *)
Record fresh (B : Z) (t : table) (d : list entry) (f : fs) (b : block) : Prop := {
  fr_inv : inv t f b;
  fr_clean : b_dirty b = false;
  fr_ok : as_ok (e_me e) (b_attrset b) d;
  fr_used : as_bufused (b_attrset b) <= B;
  fr_file : exists ts, Forall clean ts /\ length ts = length d /\ fs_get f (attr2_path base) = Some (File (text_lines d ts));
  fr_no1 : fs_get f (attr1_path base) = None;
  fr_sv : Forall (savable (e_me e)) d;
  fr_le : Forall (line_entry_ok (e_me e)) d;
  fr_tot : total d <= B
}.

(* opening *)
Lemma fresh_open B t d f b : inv t f b -> b_dirty b = false -> B <= 2 ^ 61 ->
  (exists ts, Forall clean ts /\ length ts = length d /\ fs_get f (attr2_path base) = Some (File (text_lines d ts))) ->
  fs_get f (attr1_path base) = None -> esorted d -> Forall (savable (e_me e)) d -> Forall (line_entry_ok (e_me e)) d -> total d <= B ->
  exists b', big_block_open e f base = Ret (Some b') /\ fresh B t d f b' /\
    (sums_ok f base (t_sizes t) (b_fchecksum b) -> sums_ok f base (t_sizes t) (b_fchecksum b')).
Proof.
  intros I Hd HB (ts & Hc & Hl & Hf) H1 Hso Hsv Hle Ht.
  destruct (open_clean e base dt nmemb w t f b Hbn Hty ltac:(lia) I Hd) as (b' & E & I' & S).
  pose proof (wb_layout _ _ _ _ (hv_wb _ _ _ _ _ _ _ _ I)) as HL. pose proof (hv_base _ _ _ _ _ _ _ _ I) as Eb.
  pose proof (hv_dt _ _ _ _ _ _ _ _ I) as Ed. pose proof (hv_nm _ _ _ _ _ _ _ _ I) as En. pose proof (hv_N _ _ _ _ _ _ _ _ I) as HN.
  pose proof (hv_hdr _ _ _ _ _ _ _ _ I Hd) as Hh.
  destruct (open_spec e f b (t_sizes t) d ts HL ltac:(rewrite Ed; exact Hty) ltac:(rewrite En; lia) HN ltac:(rewrite Eb; exact Hbn) ltac:(rewrite Eb; exact H1)
    ltac:(right; rewrite Eb; exact Hf) Hso Hsv Hle Hc Hl ltac:(unfold total in Ht; lia) _ ltac:(rewrite Eb; exact Hh)) as [Hop _].
  destruct (Hop (parse_table b (t_sizes t) HL ltac:(rewrite Ed; exact Hty) ltac:(rewrite En; lia) HN)) as (b2 & E2 & S2 & L2 & A2 & D2 & D2' & U2).
  rewrite Eb in E2. rewrite E in E2. injection E2 as <-. exists b'. split; [exact E|]. split; [|exact S]. constructor; auto.
  - unfold total in Ht. lia.
  - exists ts. auto.
Qed.

Lemma hrun_dframe : forall os t f b xs f' b', inv t f b -> history_ok (e_me e) dt nmemb (t_sizes t) os -> hrun e (f, b) os = Ret (xs, (f', b')) -> dframe base f f'.
Proof.
  induction os as [|o os IH]; intros t f b xs f' b' I H E; cbn [hrun] in E; [injection E as _ <- _; auto|]. destruct H as [Ho Hos].
  destruct (hist_step e base dt nmemb w Hbn Hty ltac:(lia) Hwc Hw31 t f b o I Ho) as (x & f1 & b1 & t1 & E1 & S1 & I1 & Z1 & W1).
  pose proof (hstep_dframe e f b o x f1 b1 ltac:(destruct (hinv_size _ _ _ _ _ _ _ _ I) as (_ & _ & _ & HL); rewrite (hl_Nfile _ _ HL); apply zlen_nonneg) (hv_clean _ _ _ _ _ _ _ _ I) E1) as F.
  rewrite (hv_base _ _ _ _ _ _ _ _ I) in F. rewrite E1 in E. cbn [bind] in E. destruct (hrun e (f1, b1) os) as [[xs2 [f2 b2]]| |] eqn:E2; try discriminate E. cbn [bind] in E. injection E as _ <- <-.
  rewrite <- Z1 in Hos. eapply dframe_trans; [exact F|]. eapply IH; eauto.
Qed.
Lemma hrun_app : forall os1 os2 st, hrun e st (os1 ++ os2) = ('(x1, st1) <- hrun e st os1 ;; '(x2, st2) <- hrun e st1 os2 ;; Ret (x1 ++ x2, st2)).
Proof.
  induction os1 as [|o os IH]; intros os2 st; cbn [app hrun bind].
  - destruct (hrun e st os2) as [[x s]| |]; reflexivity.
  - destruct (hstep e st o) as [[x s]| |]; cbn [bind]; auto. rewrite IH. destruct (hrun e s os) as [[x1 s1]| |]; cbn [bind]; auto. destruct (hrun e s1 os2) as [[x2 s2]| |]; reflexivity.
Qed.
Lemma srun_app : forall os1 os2 st, srun e st (os1 ++ os2) = ('(x1, st1) <- srun e st os1 ;; '(x2, st2) <- srun e st1 os2 ;; Ret (x1 ++ x2, st2)).
Proof.
  induction os1 as [|o os IH]; intros os2 st; cbn [app srun bind].
  - destruct (srun e st os2) as [[x s]| |]; reflexivity.
  - destruct (sstep e st o) as [[x s]| |]; cbn [bind]; auto. rewrite IH. destruct (srun e s os) as [[x1 s1]| |]; cbn [bind]; auto. destruct (srun e s1 os2) as [[x2 s2]| |]; reflexivity.
Qed.
Lemma history_sizes : forall os t xs t', hspecs (e_me e) dt nmemb t os xs t' -> t_sizes t' = fold_left sizes_after os (t_sizes t).
Proof.
  induction os as [|o os IH]; intros t xs t' H; inversion H as [|? ? ? t1 ? ? ? H1 H2]; subst; [reflexivity|]. cbn [fold_left]. rewrite (IH _ _ _ H2). f_equal.
  inversion H1; reflexivity.
Qed.

(* a round on the rows *)
Lemma rows_round B t d f b os : B <= 2 ^ 61 -> fresh B t d f b -> history_ok (e_me e) dt nmemb (t_sizes t) os ->
  exists xs t' f' b', run_round e (f, b) (Rows os) = Ret (f', b') /\ hspecs (e_me e) dt nmemb t os xs t' /\ fresh B t' d f' b' /\ frames base f f'.
Proof.
  intros HB [I Hc Hok Hu Hfi H1 Hsv Hle Ht] Hos. cbn [run_round]. rewrite hrun_app.
  destruct (hist_run e base dt nmemb w Hbn Hty ltac:(lia) Hwc Hw31 os t f b I Hos) as (xs & f1 & b1 & t1 & E1 & S1 & I1 & _).
  pose proof (hrun_dframe os t f b xs f1 b1 I Hos E1) as F1. rewrite E1. cbn [bind hrun].
  pose proof (hist_flush e base dt nmemb w t1 f1 b1 I1) as (f2 & E2 & I2 & _).
  assert (F2 : dframe base f1 f2) by (rewrite <- (hv_base _ _ _ _ _ _ _ _ I1); eapply flush_dframe; [apply I1|exact E2]).
  destruct (dframe_attrs _ _ _ (dframe_trans _ _ _ _ F1 F2)) as [A1 A2].
  destruct (fresh_open B t1 d f2 _ I2 eq_refl HB) as (b3 & E3 & Fr & _); rewrite ?A1, ?A2; auto.
  { apply Hok. }
  cbn [hstep]. unfold big_block_close. rewrite E2. cbn [bind]. rewrite (hv_base _ _ _ _ _ _ _ _ I1), E3. cbn [bind].
  exists xs, t1, f2, b3. split; [reflexivity|]. split; [exact S1|]. split; [exact Fr|]. apply dframe_frames. eapply dframe_trans; eauto.
Qed.

Lemma cks_same b b' sizes : has_layout b sizes -> has_layout b' sizes -> same_table b b' ->
  forall i, (i < length sizes)%nat -> nth i (b_fchecksum b') 0 = nth i (b_fchecksum b) 0.
Proof.
  intros HL S2 S1 i Hi. pose proof (st_cks _ _ S1) as Hc. rewrite (hl_Nfile _ _ HL), (hl_Nfile _ _ S2) in Hc.
  assert (Hn : forall l : list Z, nth i l 0 = nth i (firstn (Z.to_nat (zlen sizes)) l) 0).
  { intros l. rewrite <- (firstn_skipn (Z.to_nat (zlen sizes)) l) at 1.
    destruct (Nat.lt_ge_cases i (length l)) as [Hl|Hl].
    - apply app_nth1. rewrite firstn_length. unfold zlen. lia.
    - rewrite firstn_all2, skipn_all2, app_nil_r by (unfold zlen; lia). auto. }
  rewrite (Hn (b_fchecksum b')), (Hn (b_fchecksum b)), Hc. auto.
Qed.
(* the same table in another handle, the same data in another file system *)
Lemma inv_swap t f b f' b' : inv t f b -> same_table b b' -> has_layout b' (t_sizes t) -> block_dir f' base ->
  (forall i, data_file f' base i = data_file f base i) -> fs_get f' (header_path base) = Some (File (table_text b (t_sizes t))) ->
  (exists s, open_attrs e f' base = Ret (Some s) /\ as_dirty s = false) -> as_dirty (b_attrset b') = false -> inv t f' b'.
Proof.
  intros I S HL' Hd Hdf Hh Ha Hc. pose proof (wb_layout _ _ _ _ (hv_wb _ _ _ _ _ _ _ _ I)) as HL.
  assert (Hst : forall r, stored_row f' base (t_sizes t) w r = stored_row f base (t_sizes t) w r).
  { intros r. unfold stored_row. destruct (home _ r) as [[i q]|]; auto. rewrite Hdf. auto. }
  destruct (table_text_same b b' (t_sizes t) HL HL' S) as [Et _]. pose proof (cks_same b b' (t_sizes t) HL HL' S) as Hck.
  destruct S. destruct I. constructor; auto; try congruence.
  - destruct hv_wb. constructor; auto; congruence.
  - intros i Hi. rewrite Hdf. auto.
  - intros i c Hi. rewrite Hdf. auto.
  - intros r v Hr. rewrite Hst. auto.
  - intros r v. rewrite Hst. auto.
  - intros i Hi. rewrite Hck by auto. auto.
Qed.

Lemma sstep_mframe f b o rc f' b' : sstep e (f, b) o = Ret (rc, (f', b')) -> mframe (b_base b) f f'.
Proof.
  destruct o as [name um data dtype n|name| |]; cbn [sstep]; intros H.
  - apply bind_ret in H. destruct H as ([[rc1 s] m] & _ & H). injection H as <- <- <-. auto.
  - apply bind_ret in H. destruct H as ([rc1 s] & _ & H). injection H as <- <- <-. auto.
  - apply bind_ret in H. destruct H as ([[rc1 f1] b1] & H1 & H). injection H as <- <- <-. eapply flush_mframe; eauto.
  - apply bind_ret in H. destruct H as ([rc1 f1] & H1 & H). unfold big_block_close in H1. apply bind_ret in H1. destruct H1 as ([[rc2 f2] b2] & H1 & H2). injection H2 as <- <-.
    apply flush_mframe in H1. apply bind_ret in H. destruct H as (r & _ & H). destruct r; injection H as <- <- <-; apply H1.
Qed.
Lemma sess_run2 b0 sizes : has_layout b0 sizes -> header_type (b_dtype b0) -> 0 <= b_nmemb b0 < 2 ^ 31 -> zlen sizes <= 2 ^ 24 -> block_name (b_base b0) ->
  forall os B st a m d ts, sinv e b0 sizes B st a m d ts -> Forall (sop_ok (e_me e)) os -> B + zsum (map (sop_size (e_me e)) os) <= 2 ^ 61 ->
  exists st' m' d' ts', srun e st os = Ret (fst (sspecs (e_me e) a os), st') /\
    sinv e b0 sizes (B + zsum (map (sop_size (e_me e)) os)) st' (snd (sspecs (e_me e) a os)) m' d' ts' /\ mframe (b_base b0) (fst st) (fst st').
Proof.
  intros L T N F Nm. induction os as [|o os IH]; intros B st a m d ts I Ho HB; cbn [srun sspecs].
  - exists st, m, d, ts. cbn [map zsum fold_right]. rewrite Z.add_0_r. auto.
  - inversion Ho as [|? ? Ho1 Ho2]; subst. cbn [map zsum fold_right] in HB |- *.
    change (fold_right Z.add 0 (map (sop_size (e_me e)) os)) with (zsum (map (sop_size (e_me e)) os)) in HB |- *.
    assert (Hsz : forall o, sop_ok (e_me e) o -> 0 <= sop_size (e_me e) o).
    { intros [nm um da dt' n|nm| |] Hx; cbn [sop_size]; try lia. destruct Hx as [Hx _]. apply aop_size_nonneg in Hx. exact Hx. }
    assert (0 <= zsum (map (sop_size (e_me e)) os)).
    { clear - Ho2 Hsz. unfold zsum. induction Ho2 as [|o l Hx Hl IHl]; cbn [map fold_right]; [lia|]. pose proof (Hsz _ Hx). lia. }
    destruct (sess_step e b0 sizes Hg L T N F Nm B st a m d ts o I Ho1) as (st1 & m1 & d1 & ts1 & E1 & I1); [lia|auto|].
    destruct (IH _ st1 _ m1 d1 ts1 I1 Ho2 ltac:(lia)) as (st2 & m2 & d2 & ts2 & E2 & I2 & F2).
    rewrite E1. cbn [bind]. rewrite E2. cbn [bind]. destruct (sspec (e_me e) a o) as [rc a1]. cbn [fst snd] in *. destruct (sspecs (e_me e) a1 os) as [rcs a2]. cbn [fst snd] in *.
    exists st2, m2, d2, ts2. split; [reflexivity|]. split; [rewrite Z.add_assoc; exact I2|].
    destruct st as [f b], st1 as [f1 b1]. pose proof (sstep_mframe _ _ _ _ _ _ E1) as M1. pose proof (st_base _ _ (iv_tab _ _ _ _ _ _ _ _ _ I)) as Eb. cbn [fst snd] in *. rewrite <- Eb in M1.
    eapply mframe_trans; eauto.
Qed.
Lemma mframe_data f f' : mframe base f f' -> (forall i, data_file f' base i = data_file f base i) /\ fs_get f' (attr1_path base) = fs_get f (attr1_path base).
Proof.
  intros H. split.
  - intros i. unfold data_file. rewrite H; auto. intros [X|X]; revert X; [apply data_not_header|apply data_not_attr2]; lia.
  - apply H. intros [X|X]; [symmetry in X; revert X; apply header_not_attr1|revert X; apply attr1_not_attr2].
Qed.

(* a round on the attributes *)
Lemma attrs_round B t d f b os M : fresh B t d f b -> (forall k, assoc k d = M k) -> Forall (sop_ok (e_me e)) os -> B + zsum (map (sop_size (e_me e)) os) <= 2 ^ 61 ->
  exists f' b' d', run_round e (f, b) (Attrs os) = Ret (f', b') /\ fresh (B + zsum (map (sop_size (e_me e)) os)) t d' f' b' /\ (forall k, assoc k d' = attrs_after (e_me e) M os k) /\ frames base f f'.
Proof.
  intros [I Hc Hok Hu (ts & Hts & Htl & Hfi) H1 Hsv Hle Ht] HM Hos HB.
  pose proof (wb_layout _ _ _ _ (hv_wb _ _ _ _ _ _ _ _ I)) as HL. pose proof (hv_base _ _ _ _ _ _ _ _ I) as Eb.
  pose proof (hv_dt _ _ _ _ _ _ _ _ I) as Ed. pose proof (hv_nm _ _ _ _ _ _ _ _ I) as En. pose proof (hv_N _ _ _ _ _ _ _ _ I) as HN.
  pose proof (hv_hdr _ _ _ _ _ _ _ _ I Hc) as Hh. pose proof (hv_dir _ _ _ _ _ _ _ _ I) as Hdir.
  assert (S0 : sinv e b (t_sizes t) B (f, b) (mkS M M false) d d ts).
  { constructor; cbn [fst snd live saved pending]; rewrite ?Eb; auto; try (apply Hok); try (apply I).
    - constructor; auto. }
  assert (T1 : header_type (b_dtype b)) by (rewrite Ed; exact Hty). assert (T2 : 0 <= b_nmemb b < 2 ^ 31) by (rewrite En; lia). assert (T3 : block_name (b_base b)) by (rewrite Eb; exact Hbn).
  destruct (sess_run2 b (t_sizes t) HL T1 T2 HN T3 os B (f, b) (mkS M M false) d d ts S0 Hos HB) as ([f1 b1] & m1 & d1 & ts1 & E1 & S1 & F1).
  cbn [run_round]. rewrite srun_app, E1. cbn [bind srun]. set (B1 := B + _) in *. set (a1 := snd (sspecs (e_me e) (mkS M M false) os)) in *.
  destruct (sess_flush e b (t_sizes t) Hg B1 f1 b1 a1 m1 d1 ts1 S1) as (f2 & b2 & d2 & ts2 & E2 & S2).
  pose proof (st_base _ _ (iv_tab _ _ _ _ _ _ _ _ _ S1)) as Eb1. cbn [snd] in Eb1.
  pose proof (flush_mframe _ _ _ _ _ _ E2) as [F2 _]. rewrite <- Eb1, Eb in F2. cbn [fst] in F1. rewrite Eb in F1.
  destruct (mframe_data _ _ (mframe_trans _ _ _ _ F1 F2)) as [Dd Da].
  destruct S2. cbn [fst snd] in *. rewrite Eb in *.
  assert (Hs2 : as_ok (e_me e) (b_attrset b) d) by exact Hok.
  (* the attributes of the file *)
  destruct (open_spec e f2 b (t_sizes t) d2 ts2 HL T1 T2 HN ltac:(rewrite Eb; exact T3) ltac:(rewrite Eb; exact iv_no1) ltac:(right; rewrite Eb; exact iv_file) iv_dso iv_dsv iv_dle iv_ts iv_tl ltac:(unfold total in *; lia) _ ltac:(rewrite Eb; exact iv_hdr)) as [Hop _].
  destruct (Hop (parse_table b (t_sizes t) HL T1 T2 HN)) as (b3 & E3 & S3 & L3 & A3 & D3 & D3' & U3). rewrite Eb in E3.
  cbn [sstep]. unfold big_block_close. rewrite E2. cbn [bind]. rewrite <- Eb1, E3. cbn [bind].
  exists f2, b3, d2. split; [reflexivity|]. split; [|split; [intros k; rewrite iv_saved; reflexivity|apply mframe_frames; eapply mframe_trans; eauto]].
  constructor; auto.
  - eapply inv_swap; eauto. exists (b_attrset b3). split; [apply open_attrs_of; auto|exact D3'].
  - unfold total in *. lia.
  - exists ts2. auto.
Qed.

Lemma rounds_run : forall rs B t d M f b, B + attr_bytes (e_me e) rs <= 2 ^ 61 -> fresh B t d f b -> (forall k, assoc k d = M k) -> rounds_ok (e_me e) dt nmemb (t_sizes t) rs ->
  exists f' b' t' M' d', run_rounds e (f, b) rs = Ret (f', b') /\ lives (e_me e) dt nmemb t M rs t' M' /\ fresh (B + attr_bytes (e_me e) rs) t' d' f' b' /\ (forall k, assoc k d' = M' k) /\ frames base f f'.
Proof.
  assert (Hsz : forall os, Forall (sop_ok (e_me e)) os -> 0 <= zsum (map (sop_size (e_me e)) os)).
  { unfold zsum. induction 1 as [|o l Hx Hl IHl]; cbn [map fold_right]; [lia|].
    assert (0 <= sop_size (e_me e) o); [|lia]. destruct o; cbn [sop_size]; try lia. destruct Hx as [Hx _]. apply aop_size_nonneg in Hx. exact Hx. }
  assert (Hab : forall rs sizes, rounds_ok (e_me e) dt nmemb sizes rs -> 0 <= attr_bytes (e_me e) rs).
  { induction rs as [|[os|os] rs IH]; intros sizes H; cbn [attr_bytes]; [lia| |]; destruct H as [H1 H2]; apply IH in H2; [lia|]. pose proof (Hsz _ H1). lia. }
  induction rs as [|r rs IH]; intros B t d M f b HB F HM Hok.
  - exists f, b, t, M, d. split; [reflexivity|]. split; [constructor|]. split; [|split; [exact HM|apply frames_refl]]. cbn [attr_bytes]. rewrite Z.add_0_r. exact F.
  - cbn [run_rounds]. destruct r as [os|os]; destruct Hok as [H1 H2]; cbn [attr_bytes] in HB.
    + destruct (rows_round B t d f b os ltac:(pose proof (Hab _ _ H2); lia) F H1) as (xs & t1 & f1 & b1 & E1 & S1 & F1 & R1). rewrite E1. cbn [bind].
      rewrite <- (history_sizes _ _ _ _ S1) in H2. destruct (IH B t1 d M f1 b1 HB F1 HM H2) as (f2 & b2 & t2 & M2 & d2 & E2 & L2 & F2 & A2 & R2).
      exists f2, b2, t2, M2, d2. split; [exact E2|]. split; [econstructor; eauto|]. split; [exact F2|]. split; [exact A2|]. eapply frames_trans; eauto.
    + destruct (attrs_round B t d f b os M F HM H1 ltac:(pose proof (Hab _ _ H2); lia)) as (f1 & b1 & d1 & E1 & F1 & A1 & R1). rewrite E1. cbn [bind].
      destruct (IH (B + zsum (map (sop_size (e_me e)) os)) t d1 _ f1 b1 ltac:(lia) F1 A1 H2) as (f2 & b2 & t2 & M2 & d2 & E2 & L2 & F2 & A2 & R2).
      exists f2, b2, t2, M2, d2. split; [exact E2|]. split; [constructor; auto|]. cbn [attr_bytes]. rewrite Z.add_assoc. split; [exact F2|]. split; [exact A2|]. eapply frames_trans; eauto.
Qed.

(* closing a handle whose attributes were set *)
Lemma close_dressed B t d f b s : inv t f b -> as_ok (e_me e) s d -> Forall (savable (e_me e)) d -> Forall (line_entry_ok (e_me e)) d -> total d <= B -> B <= 2 ^ 61 ->
  (as_dirty s = false -> d = []) -> fs_get f (attr1_path base) = None -> fs_get f (attr2_path base) = Some (File []) ->
  exists f' b', big_block_close e f (set_attrs b s) = Ret (0, f') /\ big_block_open e f' base = Ret (Some b') /\ fresh B t d f' b' /\
    (sums_ok f base (t_sizes t) (b_fchecksum b) -> sums_ok f' base (t_sizes t) (b_fchecksum b')) /\ mframe base f f'.
Proof.
  intros I Hok Hsv Hle Ht HB Hdd H1 H2.
  pose proof (wb_layout _ _ _ _ (hv_wb _ _ _ _ _ _ _ _ I)) as HL. pose proof (hv_base _ _ _ _ _ _ _ _ I) as Eb.
  pose proof (hv_dt _ _ _ _ _ _ _ _ I) as Ed. pose proof (hv_nm _ _ _ _ _ _ _ _ I) as En. pose proof (hv_N _ _ _ _ _ _ _ _ I) as HN.
  pose proof (hv_hdr _ _ _ _ _ _ _ _ I) as Hh. pose proof (hv_dir _ _ _ _ _ _ _ _ I) as Hdir.
  assert (HL' : has_layout (set_attrs b s) (t_sizes t)) by (destruct HL; constructor; auto).
  assert (Eb' : b_base (set_attrs b s) = base) by exact Eb.
  destruct (flush_spec e f (set_attrs b s) (t_sizes t) d HL' ltac:(rewrite Eb'; exact Hdir) Hok ltac:(intros _; split; [exact Hsv|exact Hg])) as (f' & ts & E & (G1 & G2 & G3) & D' & Hts).
  rewrite Eb' in G1, G2, G3, D'. change (b_dirty (set_attrs b s)) with (b_dirty b) in G1. change (b_attrset (set_attrs b s)) with s in G2, Hts.
  change (table_text (set_attrs b s) (t_sizes t)) with (table_text b (t_sizes t)) in G1.
  assert (Hf : fs_get f' (header_path base) = Some (File (table_text b (t_sizes t)))) by (destruct (b_dirty b); [exact G1|rewrite G1; apply Hh; reflexivity]).
  assert (Ha : exists ts, Forall clean ts /\ length ts = length d /\ fs_get f' (attr2_path base) = Some (File (text_lines d ts))).
  { destruct (as_dirty s) eqn:Eds; [destruct (Hts eq_refl); exists ts; auto|]. rewrite (Hdd eq_refl). exists []. split; [constructor|]. split; [reflexivity|]. rewrite G2. exact H2. }
  assert (Mf : mframe base f f') by exact G3. destruct (mframe_data _ _ Mf) as [Dd Da]. rewrite <- Da in H1. destruct Ha as (ts2 & Ht1 & Ht2 & Ht3).
  destruct (open_spec e f' b (t_sizes t) d ts2 HL ltac:(rewrite Ed; exact Hty) ltac:(rewrite En; lia) HN ltac:(rewrite Eb; exact Hbn) ltac:(rewrite Eb; exact H1)
    ltac:(right; rewrite Eb; exact Ht3) (ok_sorted _ _ _ Hok) Hsv Hle Ht1 Ht2 ltac:(unfold total in *; lia) _ ltac:(rewrite Eb; exact Hf)) as [Hop _].
  destruct (Hop (parse_table b (t_sizes t) HL ltac:(rewrite Ed; exact Hty) ltac:(rewrite En; lia) HN)) as (b3 & E3 & S3 & L3 & A3 & D3 & D3' & U3). rewrite Eb in E3.
  exists f', b3. split; [unfold big_block_close; rewrite E; reflexivity|]. split; [exact E3|]. split; [|split; [|exact Mf]].
  - constructor; auto.
    + eapply inv_swap; eauto. exists (b_attrset b3). split; [apply open_attrs_of; auto|exact D3'].
    + unfold total in *. lia.
    + exists ts2. auto.
  - intros So i c Hi Hc. rewrite Dd in Hc. rewrite (cks_same b b3 (t_sizes t) HL L3 S3) by exact Hi. apply So; auto.
Qed.
Lemma fresh_attrs B t d f b M : fresh B t d f b -> (forall k, assoc k d = M k) ->
  exists names, (forall name, attr_shows (b_attrset b) name (M name)) /\
    attr_names (b_attrset b) = Ret names /\ sorted_names names /\ forall name, In name names <-> M name <> None.
Proof.
  intros F HM. exists (map fst d). split; [intros n; rewrite <- HM; eapply ok_shows; apply F|]. split; [eapply ok_names; apply F|].
  split; [apply esorted_sorted_names; eapply ok_sorted; apply F|]. intros n. rewrite <- HM. apply in_assoc.
Qed.
End Stored.

Lemma fresh_create e f base d nmemb sizes : let dt := dtype_normalize (e_me e) d in
  block_name base -> block_dir f base -> layout_ok sizes -> zlen sizes <= 2 ^ 24 -> fs_get f (attr1_path base) = None -> 0 < nmemb -> dt_ok (e_me e) dt ->
  exists f' b, big_block_create e f base (Some d) nmemb (zlen sizes) sizes = Ret (f', Some b) /\
    fresh e base dt nmemb 0 (new_table sizes) [] f' b /\ sums_ok f' base sizes (b_fchecksum b).
Proof.
  intros dt Hn Hd Hl HN Ha Hnm Hdt. destruct (hist_create e f base d nmemb sizes Hn Hd Hl HN Ha Hnm Hdt) as (f' & b & E & I & S).
  destruct (sess_create e f base d nmemb sizes Hn Hd Hl Ha) as (f2 & b2 & E2 & _ & _ & _ & Eb & V). rewrite E in E2. injection E2 as <- <-.
  exists f', b. split; [exact E|]. split; [|exact S]. destruct V. cbn [fst snd] in *. rewrite Eb in *. constructor; auto. exists []. auto.
Qed.

(* ------------------------------------------------------------------ the attributes *)
Lemma copy_attrs_spec e src : as_bufused src <= as_bufsize src -> forall l ms, Forall2 (rep1 (e_me e) src) l ms -> NoDup (map fst ms) -> Forall (savable (e_me e)) ms ->
  forall b m0, as_ok (e_me e) (b_attrset b) m0 -> as_bufused (b_attrset b) + total ms <= 2 ^ 61 ->
  exists s m1, copy_attrs e b src l = Ret (set_attrs b s) /\ as_ok (e_me e) s m1 /\
    (forall k, assoc k m1 = match assoc k ms with Some v => Some v | None => assoc k m0 end) /\
    (as_dirty s = match l with [] => as_dirty (b_attrset b) | _ => true end) /\ as_bufused s = as_bufused (b_attrset b) + total ms.
Proof.
  intros Hbs. induction 1 as [|a x l ms R H IH]; intros Hnd Hsv b m0 Hok Hsz; cbn [copy_attrs].
  - exists (b_attrset b), m0. split; [destruct b; reflexivity|]. split; [exact Hok|]. split; [reflexivity|]. split; [reflexivity|]. cbn. lia.
  - inversion Hnd as [|? ? Hx Hnd']; subst. inversion Hsv as [|? ? Sx Hsv']; subst.
    rewrite (rep_name _ _ _ _ R Hbs). cbn [bind]. destruct x as [nm v]. cbn [fst snd] in *.
    assert (Hes : esize (nm, v) = itemsize (e_me e) (av_dtype v) * av_nmemb v + zlen nm + 1) by (pose proof (r_len _ _ _ _ R) as X; unfold esize; cbn [fst snd] in *; rewrite X; lia).
    unfold total in Hsz. cbn [map zsum fold_right] in Hsz. change (fold_right Z.add 0 (map esize ms)) with (total ms) in Hsz.
    assert (Htn : 0 <= total ms) by (clear; unfold total, zsum; induction ms as [|y ms IH]; cbn [map fold_right]; [lia|]; pose proof (esize_pos y); lia).
    pose proof (r_dtype _ _ _ _ R) as Rd. pose proof (r_nmemb _ _ _ _ R) as Rn. pose proof (r_data _ _ _ _ R) as Rl. pose proof (r_len _ _ _ _ R) as Rz. pose proof (r_max _ _ _ _ R) as Rm. pose proof (r_dt _ _ _ _ R) as Rdt. cbn [fst snd] in *.
    destruct Sx. cbn [fst snd] in *. destruct (tok_no_blank _ sv_name) as [Hb Hnul].
    destruct (set_spec (e_realloc e) (e_me e) (b_attrset b) m0 nm (as_mem src) (at_data a) (at_dtype a) (at_nmemb a) (av_data v)) as (s1 & um & m1 & E & A & D & C & U & Un); auto.
    { rewrite Rd. apply Rdt. } { rewrite Rn. lia. } { rewrite Rd, Rn. lia. } { rewrite Rd, Rn. lia. }
    { rewrite Rd, Rn, <- Rz. unfold zlen. rewrite Nat2Z.id. exact Rl. }
    rewrite E. cbn [bind]. rewrite Rd in *. rewrite Rn in *. pose proof (proj1 Rdt) as Hnorm. rewrite Hnorm in *. rewrite (Un sv_native), set_mem_same.
    destruct (IH Hnd' Hsv' (set_attrs b s1) m1 A) as (s2 & m2 & E2 & A2 & C2 & D2 & U2).
    { cbn [set_attrs b_attrset]. rewrite U. lia. }
    exists s2, m2. rewrite E2. split; [reflexivity|]. split; [exact A2|]. split; [|split].
    + intros k. rewrite C2. cbn [assoc]. destruct (bytes_eqb k nm) eqn:Ek.
      * apply bytes_eqb_eq in Ek. subst k. apply assoc_none in Hx. rewrite Hx, C, bytes_eqb_refl. destruct v; reflexivity.
      * destruct (assoc k ms); [reflexivity|]. rewrite C, Ek. reflexivity.
    + rewrite D2. destruct l; [exact D|reflexivity].
    + rewrite U2. cbn [set_attrs b_attrset]. rewrite U. match goal with |- _ = _ + ?x => change x with (esize (nm, v) + total ms) end. rewrite Hes. lia.
Qed.

(* ------------------------------------------------------------------ writing does not look at the attributes *)
Definition dressed (s : attrset) (x : Z * fs * block * bptr * mem) : out (Z * fs * block * bptr * mem) :=
  let '(rc, f, b, p, um) := x in Ret (rc, f, set_attrs b s, p, um).
Lemma loop_attrs e cs ca s : forall fuel f b p cb um ai n,
  write_loop e f (set_attrs b s) p cb ca um ai cs n fuel = (x <- write_loop e f b p cb ca um ai cs n fuel ;; dressed s x).
Proof.
  induction fuel as [|fuel IH]; intros f b p cb um ai n; cbn [write_loop]; [reflexivity|].
  destruct (negb (0 <? n)); [reflexivity|].
  change (big_block_eof (set_attrs b s) p) with (big_block_eof b p). destruct (big_block_eof b p) as [eof| |]; cbn [bind]; try reflexivity. destruct eof; [reflexivity|].
  change (next_chunk (set_attrs b s) p cs n) with (next_chunk b p cs n). destruct (next_chunk b p cs n) as [c| |]; cbn [bind]; try reflexivity.
  change (b_nmemb (set_attrs b s)) with (b_nmemb b).
  destruct (dtype_convert (e_me e) cb (iter_init (e_me e) ca) um ai (Z.to_nat (c * b_nmemb b))) as [[[[[rc cb1] di] um1] ai1]|u|]; cbn [bind]; try reflexivity.
  destruct (negb (rc =? 0)); [reflexivity|]. change (felsize e (set_attrs b s)) with (felsize e b).
  destruct (load cb1 0 (Z.to_nat (c * felsize e b))) as [l|]; cbn [or_ub bind]; [|reflexivity].
  change (b_fchecksum (set_attrs b s)) with (b_fchecksum b). destruct (znth (b_fchecksum b) (p_fileid p)) as [old|]; cbn [or_ub bind]; [|reflexivity].
  destruct (zupd (b_fchecksum b) (p_fileid p) (sysvsum old l)) as [cks|]; cbn [or_ub bind]; [|reflexivity].
  change (b_base (set_attrs b s)) with (b_base b). destruct (fopen_rp f (data_path (b_base b) (p_fileid p))) as [cont|]; [|reflexivity].
  destruct (p_roffset p * felsize e b <? 0); [reflexivity|].
  change (set_checksums (set_attrs b s) cks) with (set_attrs (set_checksums b cks) s).
  change (big_block_seek_rel (set_attrs (set_checksums b cks) s) p c) with (big_block_seek_rel (set_checksums b cks) p c).
  destruct (big_block_seek_rel (set_checksums b cks) p c) as [[rc2 p1]| |]; cbn [bind]; try reflexivity. destruct (negb (rc2 =? 0)); [reflexivity|]. apply IH.
Qed.
Lemma write_attrs e f b p a um s : big_block_write e f (set_attrs b s) p a um = (x <- big_block_write e f b p a um ;; dressed s x).
Proof.
  unfold big_block_write, big_block_write_fuel. destruct (a_size a =? 0); [reflexivity|].
  change (set_bdirty (set_attrs b s) true) with (set_attrs (set_bdirty b true) s). set (b1 := set_bdirty b true).
  change (felsize e (set_attrs b1 s)) with (felsize e b1).
  destruct (2 ^ 31 <=? _); [reflexivity|]. destruct (_ =? 0); [reflexivity|].
  change (chunk_rows e (set_attrs b1 s)) with (chunk_rows e b1). change (b_dtype (set_attrs b1 s)) with (b_dtype b1). change (b_nmemb (set_attrs b1 s)) with (b_nmemb b1).
  change (b_foffset (set_attrs b1 s)) with (b_foffset b1). change (b_size (set_attrs b1 s)) with (b_size b1).
  destruct (big_array_init _ _ _ _ _) as [ca| |]; cbn [bind]; try reflexivity. destruct (or_ub _ _) as [o| |]; cbn [bind]; try reflexivity.
  destruct (_ <? _); [reflexivity|]. apply loop_attrs.
Qed.

Section Loop.
Variables (e : env) (base1 base2 dt : bytes) (nmemb : Z).
Let isz := itemsize (e_me e) dt.
Let w := isz * nmemb.
Hypothesis Hbn1 : block_name base1.
Hypothesis Hbn2 : block_name base2.
Hypothesis Hne : resolve base2 <> resolve base1.
Hypothesis Hty : header_type dt.
Hypothesis Hnm31 : 0 < nmemb < 2 ^ 31.
Hypothesis Hwc : w <= e_chunk e.
Hypothesis Hw31 : w < 2 ^ 31.
Hypothesis Hdt : dt_ok (e_me e) dt.
Notation inv1 := (hinv e base1 dt nmemb w).
Notation inv2 := (hinv e base2 dt nmemb w).
Variables (t1 : table) (b1 : block) (chunk : Z) (s : attrset).
Hypothesis Hch : 0 < chunk < 2 ^ 63.
Hypothesis Hsm : t_size t1 * nmemb < 2 ^ 63.

Lemma rows_part rows o c : shows_all w t1 rows -> 0 <= o -> 0 <= c -> o + c <= t_size t1 ->
  let part := firstn (Z.to_nat c) (skipn (Z.to_nat o) rows) in
  zlen part = c /\ Forall (fun v => length v = Z.to_nat w) part /\ forall j v, nth_error part j = Some v -> shows w t1 (o + Z.of_nat j) v.
Proof.
  intros (Hl & HF & Hs) Ho Hc Hoc part.
  assert (Hp : zlen part = c) by (unfold part, zlen in *; rewrite firstn_length, skipn_length; lia). split; [exact Hp|]. split.
  - unfold part. apply Forall_forall. intros v Hv. rewrite Forall_forall in HF. apply HF. rewrite <- (firstn_skipn (Z.to_nat o) rows). apply in_or_app. right.
    rewrite <- (firstn_skipn (Z.to_nat c) (skipn (Z.to_nat o) rows)). apply in_or_app. left. exact Hv.
  - intros j v Hj.
    assert (Hjc : (j < Z.to_nat c)%nat). { assert (Hx : (j < length part)%nat) by (apply nth_error_Some; congruence). unfold zlen in Hp. lia. }
    assert (E : nth_error rows (Z.to_nat o + j) = Some v).
    { rewrite <- Hj. unfold part. clear -Hjc. revert rows. induction (Z.to_nat o) as [|k IH]; intros rows; cbn [skipn Nat.add].
      - revert rows j Hjc. induction (Z.to_nat c) as [|n IHn]; intros [|y rows] [|j] Hj; cbn; auto; try lia. apply IHn. lia.
      - destruct rows as [|y rows]; [destruct (Z.to_nat c), j; reflexivity|]. cbn [nth_error]. apply IH. }
    apply Hs in E. replace (o + Z.of_nat j) with (Z.of_nat (Z.to_nat o + j)) by lia. exact E.
Qed.

Lemma copy_rows rows : shows_all w t1 rows -> forall fuel t f b2 p i, 0 <= i <= t_size t1 -> t_size t1 - i < Z.of_nat fuel ->
  inv1 t1 f b1 -> inv2 t f b2 -> t_size t = t_size t1 -> filled t rows i -> sums_ok f base2 (t_sizes t) (b_fchecksum b2) ->
  exists t' f' b', copy_loop_rows e f b1 (set_attrs b2 s) chunk i p fuel = Ret (0, f', set_attrs b' s) /\
    inv1 t1 f' b1 /\ inv2 t' f' b' /\ t_sizes t' = t_sizes t /\ filled t' rows (t_size t1) /\ sums_ok f' base2 (t_sizes t) (b_fchecksum b') /\ dframe base2 f f' /\
    b_attrset b' = b_attrset b2.
Proof.
  intros Hsh. induction fuel as [|k IH]; intros t f b2 p i Hi Hfu I1 I2 Hsz Hfi Hso; [lia|]. cbn [copy_loop_rows].
  destruct (hinv_size _ _ _ _ _ _ _ _ I1) as (Es1 & Ed1 & En1 & HL1). destruct (hinv_size _ _ _ _ _ _ _ _ I2) as (Es2 & Ed2 & En2 & HL2).
  pose proof (hl_small _ _ HL1) as H63.
  assert (Hts : t_size t1 < 2 ^ 63) by (unfold t_size in *; lia).
  rewrite u64_id by lia. rewrite Es1. destruct (i <? t_size t1) eqn:Ei; cbn [negb].
  2:{ assert (i = t_size t1) by lia. subst i. exists t, f, b2. split; [reflexivity|]. auto 10. }
  destruct (read_chunk e base1 dt nmemb Hbn1 Hty Hnm31 Hwc Hw31 Hdt t1 f b1 i chunk I1 ltac:(lia) ltac:(lia) Hsm ltac:(lia)) as [Hr _].
  set (c := Z.min chunk (t_size t1 - i)) in *.
  destruct (rows_part rows i c Hsh ltac:(lia) ltac:(lia) ltac:(lia)) as (Hpl & HFp & Hps). set (part := firstn (Z.to_nat c) (skipn (Z.to_nat i) rows)) in *.
  destruct (Hr part Hpl HFp Hps) as (m & Er & Hm). rewrite Er. cbn [bind]. change (0 =? 0) with true. cbv iota.
  assert (Ea : chunk_array (e_me e) b1 c = chunk_array (e_me e) b2 (zlen part)) by (rewrite Hpl; unfold chunk_array; rewrite Ed1, En1, Ed2, En2; reflexivity).
  assert (Hnp : part <> []) by (intros X; rewrite X in Hpl; cbn in Hpl; lia).
  destruct (write_chunk e base2 dt nmemb Hbn2 Hty Hnm31 Hwc Hw31 Hdt t f b2 p i part m I2 Hnp HFp ltac:(lia) ltac:(lia) ltac:(rewrite Hsz; exact Hsm) Hm)
    as (q & f1 & b3 & p1 & m1 & Esk & Ew & I3 & Fr & So).
  change (big_block_seek (set_attrs b2 s) p i) with (big_block_seek b2 p i). rewrite Esk. cbn [bind]. change (negb (0 =? 0)) with false. cbv iota.
  rewrite Ea, write_attrs, Ew. cbn [bind dressed]. change (negb (0 =? 0)) with false. cbv iota.
  assert (Hd : hd 0 (a_dims (chunk_array (e_me e) b2 (zlen part))) = c) by exact Hpl. rewrite Hd.
  pose proof (write_dframe _ _ _ _ _ _ _ _ _ _ _ Ew) as Df. rewrite (hv_base _ _ _ _ _ _ _ _ I2) in Df.
  assert (I1' : inv1 t1 f1 b1).
  { eapply hinv_same; [|exact I1]. apply (frames_same base2 base1 f f1 Hne); [apply I2|apply (hv_dir _ _ _ _ _ _ _ _ I1)|exact Fr]. }
  assert (Hfi' : filled (with_rows t i part) rows (i + c)).
  { destruct Hsh as (Hl & _). pose proof (filled_more e dt nmemb (fun _ => (0, m)) t rows i c ltac:(lia) ltac:(lia) Hfi) as X. fold part in X. replace (Z.min (i + c) (zlen rows)) with (i + c) in X by lia. exact X. }
  assert (So' : sums_ok f1 base2 (t_sizes t) (b_fchecksum b3)).
  { apply So; [|exact Hso]. intros z Hz. rewrite (Hfi z) by lia. replace (z <? i) with false by lia. reflexivity. }
  destruct (IH (with_rows t i part) f1 b3 p1 (i + c) ltac:(lia) ltac:(lia) I1' I3 Hsz Hfi' So') as (t2 & f2 & b4 & E2 & J1 & J2 & T2 & F2 & S2 & D2 & A2).
  exists t2, f2, b4. split; [exact E2|]. split; [exact J1|]. split; [exact J2|]. split; [exact T2|]. split; [exact F2|]. split; [exact S2|]. split; [eapply dframe_trans; eauto|].
  assert (Hs0 : a_size (chunk_array (e_me e) b2 (zlen part)) <> 0) by (cbn [chunk_array a_size]; rewrite En2, Hpl; nia).
  rewrite A2. rewrite (write_shape _ _ _ _ _ _ _ _ _ _ _ Hs0 Ew). reflexivity.
Qed.

(* every row is shown or absent *)
Lemma home_diff sizes : forall r r2 i q q2, home sizes r = Some (i, q) -> home sizes r2 = Some (i, q2) -> r2 - r = q2 - q.
Proof.
  induction sizes as [|x l IH]; intros r r2 i q q2; cbn [home]; [discriminate|].
  destruct (r <? 0); [discriminate|]. destruct (r2 <? 0); [discriminate|].
  destruct (r <? x).
  - intros H. injection H as <- <-. destruct (r2 <? x); [intros H; injection H as <-; lia|]. destruct (home l (r2 - x)) as [[i' q']|]; discriminate.
  - destruct (home l (r - x)) as [[i' q']|] eqn:E1; [|discriminate]. intros H. injection H as <- <-.
    destruct (r2 <? x); [discriminate|]. destruct (home l (r2 - x)) as [[i2 q3]|] eqn:E2; [|discriminate]. intros H. injection H as -> <-.
    specialize (IH _ _ _ _ _ E1 E2). lia.
Qed.
Lemma row_cases t f b r : inv1 t f b -> (exists v, length v = Z.to_nat w /\ shows w t r v) \/ absent t r.
Proof.
  intros I. assert (Hi : 0 < isz) by apply Hdt. assert (Hw0 : 0 < w) by (unfold w; clear -Hi Hnm31; nia).
  destruct (stored_row f base1 (t_sizes t) w r) as [v|] eqn:E.
  - left. exists v. split; [|exact (hv_zero _ _ _ _ _ _ _ _ I _ _ E)]. eapply StepFacts.stored_row_width; [|exact E]. lia.
  - right. split.
    + destruct (t_row t r) as [v|] eqn:Er; [|reflexivity]. apply (hv_row _ _ _ _ _ _ _ _ I) in Er. congruence.
    + intros r2 Hr (i & q & q2 & H1 & H2). destruct (t_row t r2) as [v|] eqn:Er; [|reflexivity]. apply (hv_row _ _ _ _ _ _ _ _ I) in Er.
      exfalso. pose proof (home_diff _ _ _ _ _ _ H1 H2) as Hq. unfold stored_row in E, Er. rewrite H1 in E. rewrite H2 in Er.
      destruct (data_file f base1 i) as [c|]; [|discriminate]. destruct ((q + 1) * w <=? zlen c) eqn:E1; [discriminate|]. destruct ((q2 + 1) * w <=? zlen c) eqn:E2; [|discriminate]. nia.
Qed.
Lemma rows_cases t f b : inv1 t f b -> forall n o,
  (exists rows, zlen rows = Z.of_nat n /\ Forall (fun v => length v = Z.to_nat w) rows /\ forall j v, nth_error rows j = Some v -> shows w t (o + Z.of_nat j) v) \/
  (exists r, o <= r < o + Z.of_nat n /\ absent t r).
Proof.
  intros I. induction n as [|n IH]; intros o.
  - left. exists []. split; [reflexivity|]. split; [constructor|]. intros [|j] v; discriminate.
  - destruct (row_cases t f b o I) as [(v & Hv & Hs)|Ha]; [|right; exists o; split; [lia|exact Ha]].
    destruct (IH (o + 1)) as [(rows & Hl & HF & Hr)|(r & Hr & Ha)]; [|right; exists r; split; [lia|exact Ha]].
    left. exists (v :: rows). split; [unfold zlen in *; cbn [length]; lia|]. split; [constructor; assumption|].
    intros [|j] u Hu; cbn [nth_error] in Hu; [injection Hu as <-; replace (o + Z.of_nat 0) with o by lia; exact Hs|].
    apply Hr in Hu. replace (o + Z.of_nat (S j)) with (o + 1 + Z.of_nat j) by lia. exact Hu.
Qed.

(* a row that was never written *)
Lemma copy_absent : forall fuel t f b2 p i, 0 <= i <= t_size t1 -> t_size t1 - i < Z.of_nat fuel ->
  inv1 t1 f b1 -> inv2 t f b2 -> t_size t = t_size t1 -> (exists r, i <= r < t_size t1 /\ absent t1 r) ->
  exists f' b', copy_loop_rows e f b1 (set_attrs b2 s) chunk i p fuel = Ret (1, f', b') /\ dframe base2 f f'.
Proof.
  induction fuel as [|k IH]; intros t f b2 p i Hi Hfu I1 I2 Hsz Hab; [lia|]. cbn [copy_loop_rows].
  destruct (hinv_size _ _ _ _ _ _ _ _ I1) as (Es1 & Ed1 & En1 & HL1). destruct (hinv_size _ _ _ _ _ _ _ _ I2) as (Es2 & Ed2 & En2 & HL2).
  pose proof (hl_small _ _ HL1) as H63.
  assert (Hts : t_size t1 < 2 ^ 63) by (unfold t_size in *; lia).
  assert (Hit : i < t_size t1) by (destruct Hab as (r & Hr & _); lia).
  rewrite u64_id by lia. rewrite Es1. replace (i <? t_size t1) with true by lia. cbn [negb].
  destruct (read_chunk e base1 dt nmemb Hbn1 Hty Hnm31 Hwc Hw31 Hdt t1 f b1 i chunk I1 ltac:(lia) ltac:(lia) Hsm ltac:(lia)) as [Hr Hr2].
  set (c := Z.min chunk (t_size t1 - i)) in *.
  destruct (rows_cases t1 f b1 I1 (Z.to_nat c) i) as [(part & Hpl & HFp & Hps)|Ha].
  2:{ rewrite Hr2 by (destruct Ha as (r & Hr' & Ha); exists r; split; [lia|exact Ha]). cbn [bind]. change (-1 =? 0) with false. cbv iota.
      exists f, (set_attrs b2 s). split; [reflexivity|apply dframe_refl]. }
  rewrite Z2Nat.id in Hpl by lia.
  destruct (Hr part Hpl HFp Hps) as (m & Er & Hm). rewrite Er. cbn [bind]. change (0 =? 0) with true. cbv iota.
  assert (Ea : chunk_array (e_me e) b1 c = chunk_array (e_me e) b2 (zlen part)) by (rewrite Hpl; unfold chunk_array; rewrite Ed1, En1, Ed2, En2; reflexivity).
  assert (Hnp : part <> []) by (intros X; rewrite X in Hpl; cbn in Hpl; lia).
  destruct (write_chunk e base2 dt nmemb Hbn2 Hty Hnm31 Hwc Hw31 Hdt t f b2 p i part m I2 Hnp HFp ltac:(lia) ltac:(lia) ltac:(rewrite Hsz; exact Hsm) Hm)
    as (q & f1 & b3 & p1 & m1 & Esk & Ew & I3 & Fr & _).
  change (big_block_seek (set_attrs b2 s) p i) with (big_block_seek b2 p i). rewrite Esk. cbn [bind]. change (negb (0 =? 0)) with false. cbv iota.
  rewrite Ea, write_attrs, Ew. cbn [bind dressed]. change (negb (0 =? 0)) with false. cbv iota.
  assert (Hd : hd 0 (a_dims (chunk_array (e_me e) b2 (zlen part))) = c) by exact Hpl. rewrite Hd.
  pose proof (write_dframe _ _ _ _ _ _ _ _ _ _ _ Ew) as Df. rewrite (hv_base _ _ _ _ _ _ _ _ I2) in Df.
  assert (I1' : inv1 t1 f1 b1).
  { eapply hinv_same; [|exact I1]. apply (frames_same base2 base1 f f1 Hne); [apply I2|apply (hv_dir _ _ _ _ _ _ _ _ I1)|exact Fr]. }
  assert (Hab' : exists r, i + c <= r < t_size t1 /\ absent t1 r).
  { destruct Hab as (r & Hr' & Ha). exists r. split; [|exact Ha]. destruct (Z_lt_dec r (i + c)); [|lia]. exfalso.
    destruct (nth_error part (Z.to_nat (r - i))) as [v|] eqn:Ev; [|apply nth_error_None in Ev; unfold zlen in Hpl; lia].
    apply Hps in Ev. replace (i + Z.of_nat (Z.to_nat (r - i))) with r in Ev by lia. destruct Ha as [A1 A2]. destruct Ev as [X|(_ & _ & r2 & X1 & X2 & X3)]; [congruence|]. apply X3. auto. }
  destruct (IH (with_rows t i part) f1 b3 p1 (i + c) ltac:(lia) ltac:(lia) I1' I3 Hsz Hab') as (f2 & b4 & E2 & D2).
  exists f2, b4. split; [exact E2|]. eapply dframe_trans; eauto.
Qed.
End Loop.

(* no progress *)
Lemma copy_stuck e base dt nmemb t f b bnew i : block_name base -> header_type dt -> 0 < nmemb < 2 ^ 31 -> itemsize (e_me e) dt * nmemb <= e_chunk e -> itemsize (e_me e) dt * nmemb < 2 ^ 31 -> dt_ok (e_me e) dt ->
  hinv e base dt nmemb (itemsize (e_me e) dt * nmemb) t f b -> 0 <= i < t_size t -> (forall p, exists q, big_block_seek bnew p i = Ret (0, q)) ->
  forall fuel p, copy_loop_rows e f b bnew 0 i p fuel = Diverge.
Proof.
  intros Hbn Hty Hnm Hwc Hw31 Hdt I Hi Hsk. destruct (hinv_size _ _ _ _ _ _ _ _ I) as (Es & Ed & En & HL). pose proof (hl_small _ _ HL) as H63.
  assert (Hts : t_size t < 2 ^ 63) by (unfold t_size in *; lia).
  destruct (read_zero e base dt nmemb Hnm Hw31 Hdt t f b i 0 I ltac:(lia) ltac:(lia) ltac:(lia) ltac:(lia)) as (m & Er).
  induction fuel as [|k IH]; intros p; [reflexivity|]. cbn [copy_loop_rows]. rewrite u64_id by lia. rewrite Es. replace (i <? t_size t) with true by lia. cbn [negb].
  rewrite Er. cbn [bind]. change (0 =? 0) with true. cbv iota. destruct (Hsk p) as (q & Eq). rewrite Eq. cbn [bind]. change (negb (0 =? 0)) with false. cbv iota.
  unfold big_block_write, big_block_write_fuel. change (a_size (chunk_array (e_me e) b 0) =? 0) with true. cbn [bind]. change (negb (0 =? 0)) with false. cbv iota.
  change (hd 0 (a_dims (chunk_array (e_me e) b 0))) with 0. rewrite Z.add_0_r. apply IH.
Qed.

(* ------------------------------------------------------------------ the whole program *)
Lemma dirs_same base f f' p : only_new_dirs f f' p -> ~ prefix_of (resolve base) p -> same_block base f f'.
Proof.
  intros [N1 N2] Hp. assert (H : forall q, (q = resolve base \/ exists c, q = resolve base ++ [c]) -> fs_get f' q = fs_get f q).
  { intros q Hq. destruct (fs_get f q) as [n|] eqn:E; [apply N1; exact E|]. destruct (fs_get f' q) as [n|] eqn:E'; [|reflexivity]. exfalso. apply Hp.
    destruct (N2 _ _ E E') as [_ X]. destruct Hq as [->|(c & ->)]; [exact X|]. eapply prefix_trans; [apply prefix_app|exact X]. }
  split; [apply H; auto|]. intros q Hq. apply H. right. apply in_block_app. exact Hq.
Qed.
Lemma fresh_same e base dt nmemb B t d f f' b : same_block base f f' -> fresh e base dt nmemb B t d f b -> fresh e base dt nmemb B t d f' b.
Proof.
  intros S [J Jc Jo Ju (ts & H1 & H2 & H3) J1 Jv Jl Jt]. pose proof (hinv_same _ _ _ _ _ _ _ _ _ S J) as I. destruct S as [S1 S2]. constructor; auto.
  - exists ts. split; auto. split; auto. rewrite S2; auto. left. right. left. reflexivity.
  - rewrite S2; auto. right. reflexivity.
Qed.

(* Nothing else changes: only the block's own files, and new directories on
   the way to it. *)
Definition kept (base : bytes) (f f' : fs) : Prop :=
  (forall q x, ~ own_file base q -> fs_get f q = Some x -> fs_get f' q = Some x) /\
  (forall q x, ~ own_file base q -> fs_get f q = None -> fs_get f' q = Some x -> x = Dir /\ prefix_of q (resolve base)).
Lemma kept_dirs base f f' p : only_new_dirs f f' p -> prefix_of p (resolve base) -> kept base f f'.
Proof. intros [N1 N2] Hp. split; [intros q x _; apply N1|]. intros q x _ E E'. destruct (N2 q x E E') as [-> X]. split; [reflexivity|]. eapply prefix_trans; eauto. Qed.
Lemma kept_frames base f f' : frames base f f' -> kept base f f'.
Proof. intros H. split; intros q x Hq; rewrite (H q Hq); [auto|congruence]. Qed.
Lemma kept_trans base f g h : kept base f g -> kept base g h -> kept base f h.
Proof.
  intros [A1 A2] [B1 B2]. split; [eauto|]. intros q x Hq E E'. destruct (fs_get g q) as [y|] eqn:Eg; [|eauto].
  destruct (A2 q y Hq E Eg) as [-> X]. split; [|exact X]. rewrite (B1 q Dir Hq Eg) in E'. congruence.
Qed.

Definition pieces (N0 Nfile : Z) : Z := if (Nfile =? -1) || (N0 =? 0) then N0 else Nfile.
Lemma copy_even size n : 0 <= size -> (n = 0 /\ size = 0 \/ 0 < n) -> size * n < 2 ^ 64 -> even size n (copy_sizes size n).
Proof.
  intros Hs [[-> ->]|Hn] Hm.
  - split; [reflexivity|]. split; [reflexivity|constructor].
  - apply (split_gen (fun size n i => u64 (u64 ((i + 1) * size) / n - u64 (i * size) / n))); auto. intros i Hi.
    rewrite (u64_id ((i + 1) * size)) by nia. rewrite (u64_id (i * size)) by nia. rewrite (Z.mul_comm size (i + 1)), (Z.mul_comm size i).
    assert (i * size / n <= (i + 1) * size / n) by (apply Z.div_le_mono; nia). assert (0 <= i * size / n) by (apply Z.div_pos; nia).
    assert ((i + 1) * size / n <= (i + 1) * size) by (apply Z.div_le_upper_bound; nia). apply u64_id. nia.
Qed.
Lemma even_layout size n l : 0 <= size < 2 ^ 63 -> 0 <= n < 2 ^ 31 -> even size n l -> layout_ok l.
Proof.
  intros Hs Hn (H1 & H2 & H3). split; [|lia]. eapply Forall_impl; [|exact H3]. cbn beta. intros x Hx. assert (0 <= size / n); [|lia].
  destruct (Z.eq_dec n 0) as [->|]; [rewrite Zdiv_0_r; lia|]. apply Z.div_pos; lia.
Qed.

Section Whole.
Variables (e : env) (f : fs) (path newpath blk newblk dt : bytes) (nmemb Nfile : Z) (t : table) (d : list entry) (b0 : block).
Let base1 := path_join path blk.
Let base2 := path_join newpath newblk.
Let w := itemsize (e_me e) dt * nmemb.
Let N := pieces (zlen (t_sizes t)) Nfile.
Let cs := copy_sizes (t_size t) N.
Hypothesis Hg : g_clean e.
Hypothesis Hbn1 : block_name base1.
Hypothesis Hop1 : big_file_open f path = Some path.
Hypothesis Hfr : fresh e base1 dt nmemb (2 ^ 61) t d f b0.
Hypothesis Hmk : makeable e f newpath newblk dt nmemb.
Hypothesis Hsep : ~ prefix_of (resolve base1) (resolve base2).
Hypothesis HN : N = 0 /\ t_size t = 0 \/ 0 < N.
Hypothesis HN24 : N <= 2 ^ 24.
Hypothesis HsN : t_size t * N < 2 ^ 64.
Hypothesis Hdn : dtype_normalize (e_me e) dt = dt.

Lemma copy_begins : exists f3 b1 b2 s, fresh e base1 dt nmemb (2 ^ 61) t d f3 b1 /\ fresh e base2 dt nmemb 0 (new_table cs) [] f3 b2 /\
  sums_ok f3 base2 cs (b_fchecksum b2) /\ as_ok (e_me e) s d /\ (as_dirty s = false -> d = []) /\ fs_get f3 (resolve newpath) = Some Dir /\
  kept base2 f f3 /\
  forall bs fuel, bigfile_copy e f path newpath blk newblk Nfile bs fuel =
   ('(rc, g, bnew) <- (if 0 <? t_size t then copy_loop_rows e f3 b1 (set_attrs b2 s) (bs / w) 0 (mkPtr 0 0 0) fuel else Ret (0, f3, set_attrs b2 s)) ;;
    if negb (rc =? 0) then Ret (1, g) else
    '(rc, g) <- big_block_close e g bnew ;;
    if negb (rc =? 0) then Ret (1, g) else
    '(_, g) <- big_block_close e g b1 ;;
    Ret (0, g)).
Proof.
  destruct (prepare _ _ _ _ _ _ Hmk) as (f1 & E1 & O1 & M1 & C1 & A1 & N1). fold base2 in C1, A1.
  pose proof Hmk as [[Hp1 Hp2] _ Mn _ _ Mi Mt Md Mc Mw]. fold base2 in Mn. rewrite Hdn in Mt, Md, Mc, Mw. fold w in Mc, Mw.
  assert (Hpre : prefix_of (resolve newpath) (resolve base2)) by (apply join_under; exact Hp1).
  assert (Hsep1 : ~ prefix_of (resolve base1) (resolve newpath)) by (intros X; apply Hsep; eapply prefix_trans; eauto).
  pose proof (fresh_same _ _ _ _ _ _ _ _ _ _ (dirs_same base1 f f1 _ N1 Hsep1) Hfr) as F1.
  destruct (fresh_open e base1 dt nmemb Hbn1 Mt Mi (2 ^ 61) t d f1 b0 (fr_inv _ _ _ _ _ _ _ _ _ F1) (fr_clean _ _ _ _ _ _ _ _ _ F1) ltac:(lia) (fr_file _ _ _ _ _ _ _ _ _ F1)
    (fr_no1 _ _ _ _ _ _ _ _ _ F1) (ok_sorted _ _ _ (fr_ok _ _ _ _ _ _ _ _ _ F1)) (fr_sv _ _ _ _ _ _ _ _ _ F1) (fr_le _ _ _ _ _ _ _ _ _ F1) (fr_tot _ _ _ _ _ _ _ _ _ F1)) as (b1 & Eb1 & G1 & _).
  destruct (block_place f1 newpath newblk Mn M1 C1 A1) as (f2 & E2 & D2 & A2 & N2). fold base2 in D2, A2, N2.
  pose proof (fresh_same _ _ _ _ _ _ _ _ _ _ (dirs_same base1 f1 f2 _ N2 Hsep) G1) as G2.
  destruct (hinv_size _ _ _ _ _ _ _ _ (fr_inv _ _ _ _ _ _ _ _ _ G1)) as (Es & Ed & En & HL). pose proof (hl_small _ _ HL) as H63.
  assert (Hts : 0 <= t_size t < 2 ^ 63) by (unfold t_size in *; split; [apply zsum_nonneg; apply HL|lia]).
  pose proof (copy_even (t_size t) N ltac:(lia) HN HsN) as Hev. fold cs in Hev. destruct Hev as (V1 & V2 & V3).
  pose proof (even_layout (t_size t) N cs Hts ltac:(lia) (conj V1 (conj V2 V3))) as Hlo.
  destruct (fresh_create e f2 base2 dt nmemb cs Mn D2 Hlo ltac:(lia) A2 ltac:(lia) ltac:(rewrite Hdn; exact Md)) as (f3 & b2 & E3 & G3 & S3). rewrite Hdn in G3.
  pose proof (create_frames _ _ _ _ _ _ _ _ _ (proj1 (proj2 Mn)) E3) as Fr3.
  assert (Hne : resolve base2 <> resolve base1) by (intros X; apply Hsep; rewrite X; apply prefix_refl).
  pose proof (fresh_same _ _ _ _ _ _ _ _ _ _ (frames_same base2 base1 f2 f3 Hne D2 (proj1 (hv_dir _ _ _ _ _ _ _ _ (fr_inv _ _ _ _ _ _ _ _ _ G2))) Fr3) G2) as G4.
  pose proof (fr_ok _ _ _ _ _ _ _ _ _ G1) as Ok1.
  assert (Hu0 : as_bufused (b_attrset b2) + total d <= 2 ^ 61) by (pose proof (fr_used _ _ _ _ _ _ _ _ _ G3); pose proof (fr_tot _ _ _ _ _ _ _ _ _ G1); lia).
  destruct (copy_attrs_spec e (b_attrset b1) ltac:(apply Ok1) (as_list (b_attrset b1)) d ltac:(apply Ok1) ltac:(apply esorted_nodup; apply Ok1) (fr_sv _ _ _ _ _ _ _ _ _ G1) b2 [] (fr_ok _ _ _ _ _ _ _ _ _ G3) Hu0)
    as (s & m1 & Ec & Os & Am & Ds & _).
  assert (Em : m1 = d). { apply esorted_ext; [apply Os|apply Ok1|]. intros k. rewrite Am. destruct (assoc k d); reflexivity. }
  subst m1. exists f3, b1, b2, s. split; [exact G4|]. split; [exact G3|]. split; [exact S3|]. split; [exact Os|].
  split. { intros X. rewrite X in Ds. destruct (as_list (b_attrset b1)) as [|a l] eqn:El; [|discriminate Ds]. pose proof (ok_rep _ _ _ Ok1) as R. rewrite El in R. inversion R. reflexivity. }
  assert (Fr : kept base2 f f3).
  { eapply kept_trans; [eapply kept_dirs; [exact N1|exact Hpre]|]. eapply kept_trans; [eapply kept_dirs; [exact N2|apply prefix_refl]|]. apply kept_frames. exact Fr3. }
  split. { rewrite Fr3; [apply N2, M1, prefix_refl|]. intros X. exact (own_shorter newpath newblk _ Hp1 X eq_refl). }
  split; [exact Fr|]. intros bs fuel. unfold bigfile_copy. rewrite Hop1, E1. unfold big_file_open_block. fold base1. rewrite Eb1. cbn [bind].
  rewrite (hl_Nfile _ _ HL), Es, Ed, En. fold (pieces (zlen (t_sizes t)) Nfile). fold N. replace (N + 10 <=? 0) with false by lia.
  unfold big_file_create_block. rewrite E2. change (0 =? 0) with true. cbv iota. fold base2 cs. rewrite <- V1, E3. cbn [bind].
  destruct (hinv_size _ _ _ _ _ _ _ _ (fr_inv _ _ _ _ _ _ _ _ _ G3)) as (Es2 & _ & _ & _). rewrite Es2. cbn [new_table t_size t_sizes].
  replace (t_size (new_table cs)) with (t_size t) by (symmetry; exact V2). rewrite Z.eqb_refl. cbn [negb]. rewrite Ec. cbn [bind].
  replace (0 <? nmemb) with true by lia. cbn [andb]. rewrite (Z.mul_comm nmemb). fold w. assert (Hi : 0 < itemsize (e_me e) dt) by apply Md. assert (Hw : 0 < w) by (unfold w; nia).
  rewrite u64_id by lia. replace (w =? 0) with false by lia. reflexivity.
Qed.
End Whole.

(* what the three outcomes are *)
Lemma copy_run e f path newpath blk newblk dt nmemb Nfile t d b0 rows bs fuel M : let base1 := path_join path blk in let base2 := path_join newpath newblk in
  let w := itemsize (e_me e) dt * nmemb in let N := pieces (zlen (t_sizes t)) Nfile in let cs := copy_sizes (t_size t) N in
  g_clean e -> block_name base1 -> big_file_open f path = Some path -> fresh e base1 dt nmemb (2 ^ 61) t d f b0 -> (forall k, assoc k d = M k) ->
  makeable e f newpath newblk dt nmemb -> ~ prefix_of (resolve base1) (resolve base2) ->
  (N = 0 /\ t_size t = 0 \/ 0 < N) -> N <= 2 ^ 24 -> t_size t * N < 2 ^ 64 -> dtype_normalize (e_me e) dt = dt -> shows_all w t rows ->
  t_size t * nmemb < 2 ^ 63 -> w <= bs < 2 ^ 63 -> t_size t < Z.of_nat fuel ->
  exists f', bigfile_copy e f path newpath blk newblk Nfile bs fuel = Ret (0, f') /\ block_has e f' newpath newblk dt nmemb cs rows /\
    block_attrs e f' newpath newblk M /\ kept base2 f f' /\
    exists t' b', fresh e base2 dt nmemb (2 ^ 61) t' d f' b' /\ t_sizes t' = cs /\ shows_all w t' rows /\ sums_ok f' base2 cs (b_fchecksum b').
Proof.
  intros base1 base2 w N cs Hg Hbn1 Hop Hfr HM Hmk Hsep HN HN24 HsN Hdn Hsh Hsm Hbs Hfu.
  destruct (copy_begins e f path newpath blk newblk dt nmemb Nfile t d b0 Hbn1 Hop Hfr Hmk Hsep HN HN24 HsN Hdn) as (f3 & b1 & b2 & s & G1 & G2 & S2 & Os & Ds & Hnp & Fr & E).
  fold base1 base2 N in G1, G2, S2, Fr, E. fold cs w in G2, S2, E. rewrite E.
  pose proof Hmk as [[Hp1 Hp2] _ Mn _ _ Mi Mt Md Mc Mw]. fold base2 in Mn. rewrite Hdn in Mt, Md, Mc, Mw. fold w in Mc, Mw.
  assert (Hi : 0 < itemsize (e_me e) dt) by apply Md. assert (Hw : 0 < w) by (unfold w; nia).
  assert (Hne : resolve base2 <> resolve base1) by (intros X; apply Hsep; rewrite X; apply prefix_refl).
  pose proof (fr_inv _ _ _ _ _ _ _ _ _ G1) as I1. pose proof (fr_inv _ _ _ _ _ _ _ _ _ G2) as I2. fold w in I1, I2.
  destruct (hinv_size _ _ _ _ _ _ _ _ I1) as (Es & Ed & En & HL). pose proof (hl_small _ _ HL) as H63.
  assert (Hts : 0 <= t_size t < 2 ^ 63) by (unfold t_size in *; split; [apply zsum_nonneg; apply HL|lia]).
  pose proof (copy_even (t_size t) N ltac:(lia) HN HsN) as (V1 & V2 & V3). fold cs in V1, V2, V3.
  assert (Hch : 0 < bs / w < 2 ^ 63). { split; [apply Z.div_str_pos; lia|]. apply Z.le_lt_trans with bs; [apply Z.div_le_upper_bound; nia|lia]. }
  assert (Hfi : filled (new_table cs) rows 0) by (intros r Hr; cbn [new_table t_row]; replace (r <? 0) with false by lia; reflexivity).
  assert (HX : exists t' f' b', (if 0 <? t_size t then copy_loop_rows e f3 b1 (set_attrs b2 s) (bs / w) 0 (mkPtr 0 0 0) fuel else Ret (0, f3, set_attrs b2 s)) = Ret (0, f', set_attrs b' s) /\
    hinv e base2 dt nmemb w t' f' b' /\ t_sizes t' = cs /\ filled t' rows (t_size t) /\ sums_ok f' base2 cs (b_fchecksum b') /\ dframe base2 f3 f').
  { destruct (0 <? t_size t) eqn:E0.
    - destruct (copy_rows e base1 base2 dt nmemb Hbn1 Mn Hne Mt Mi Mc Mw Md t b1 (bs / w) s Hch Hsm rows Hsh fuel (new_table cs) f3 b2 (mkPtr 0 0 0) 0 ltac:(lia) ltac:(lia) I1 I2 V2 Hfi S2)
        as (t' & f' & b' & X1 & _ & X2 & X3 & X4 & X5 & X6 & _). exists t', f', b'. auto 10.
    - assert (t_size t = 0) by lia. exists (new_table cs), f3, b2. split; [reflexivity|]. split; [exact I2|]. split; [reflexivity|]. rewrite H. auto using dframe_refl. }
  destruct HX as (t' & f' & b' & X1 & X2 & X3 & X4 & X5 & X6). rewrite X1. cbn [bind]. change (negb (0 =? 0)) with false. cbv iota.
  destruct (dframe_attrs _ _ _ X6) as [Q1 Q2].
  assert (Qf : fs_get f3 (attr2_path base2) = Some (File [])). { destruct (fr_file _ _ _ _ _ _ _ _ _ G2) as (ts & _ & L & Y). destruct ts; [exact Y|discriminate L]. }
  destruct (close_dressed e base2 dt nmemb Hg Mn Mt Mi Mw (2 ^ 61) t' d f' b' s X2 Os (fr_sv _ _ _ _ _ _ _ _ _ G1) (fr_le _ _ _ _ _ _ _ _ _ G1) (fr_tot _ _ _ _ _ _ _ _ _ G1) ltac:(lia) Ds
    ltac:(rewrite Q1; apply (fr_no1 _ _ _ _ _ _ _ _ _ G2)) ltac:(rewrite Q2; exact Qf)) as (f4 & b4 & E4 & O4 & G4 & S4 & F4).
  rewrite E4. cbn [bind]. change (negb (0 =? 0)) with false. cbv iota. unfold big_block_close. rewrite (clean_flush e f4 b1 (fr_clean _ _ _ _ _ _ _ _ _ G1) (hv_clean _ _ _ _ _ _ _ _ I1)). cbn [bind].
  exists f4. split; [reflexivity|].
  assert (Fr' : kept base2 f3 f4).
  { eapply kept_trans; apply kept_frames; [apply dframe_frames; exact X6|apply mframe_frames; exact F4]. }
  assert (Hsh' : shows_all w t' rows).
  { destruct Hsh as (Z1 & Z2 & Z3). split; [unfold t_size at 1; rewrite X3, V2; exact Z1|]. split; [exact Z2|]. intros r v Hr. left. rewrite (X4 (Z.of_nat r)) by lia. rewrite Nat2Z.id.
    assert ((r < length rows)%nat) by (apply nth_error_Some; congruence). replace (Z.of_nat r <? t_size t) with true by (unfold zlen in Z1; lia). exact Hr. }
  assert (S5 : sums_ok f4 base2 cs (b_fchecksum b4)) by (rewrite <- X3; apply S4; rewrite X3; exact X5).
  split; [|split; [|split; [eapply kept_trans; eauto|exists t', b4; auto]]].
  - rewrite <- X3. pose proof (fr_inv _ _ _ _ _ _ _ _ _ G4) as I4. fold w in I4. destruct Hsh as (Z1 & Z2 & Z3).
    apply (has_of_inv e f4 newpath newblk dt nmemb t' b4 rows Mn Mt Mi Mc Mw Md I4 (fr_clean _ _ _ _ _ _ _ _ _ G4)).
    + unfold big_file_open. destruct newpath as [|c p]; [contradiction|]. rewrite (proj1 Fr' _ Dir); [rewrite strdup_id by exact Hp2; reflexivity| |exact Hnp]. intros X. exact (own_shorter (c :: p) newblk _ ltac:(discriminate) X eq_refl).
    + exact Hsh'.
    + rewrite Z1. exact Hsm.
    + rewrite X3. exact S5.
  - destruct (fresh_attrs e base2 dt nmemb _ _ _ _ _ M G4 HM) as (names & A1 & A2 & A3 & A4). exists b4, names. split; [exact O4|]. auto.
Qed.

Lemma copy_ok e f path newpath blk newblk dt nmemb Nfile t d b0 rows bs fuel M : let base1 := path_join path blk in let base2 := path_join newpath newblk in
  let w := itemsize (e_me e) dt * nmemb in let N := pieces (zlen (t_sizes t)) Nfile in let cs := copy_sizes (t_size t) N in
  g_clean e -> block_name base1 -> big_file_open f path = Some path -> fresh e base1 dt nmemb (2 ^ 61) t d f b0 -> (forall k, assoc k d = M k) ->
  makeable e f newpath newblk dt nmemb -> ~ prefix_of (resolve base1) (resolve base2) ->
  (N = 0 /\ t_size t = 0 \/ 0 < N) -> N <= 2 ^ 24 -> t_size t * N < 2 ^ 64 -> dtype_normalize (e_me e) dt = dt -> shows_all w t rows ->
  t_size t * nmemb < 2 ^ 63 -> w <= bs < 2 ^ 63 -> t_size t < Z.of_nat fuel ->
  exists f', bigfile_copy e f path newpath blk newblk Nfile bs fuel = Ret (0, f') /\ block_has e f' newpath newblk dt nmemb cs rows /\
    block_attrs e f' newpath newblk M /\ (forall q x, ~ own_file base2 q -> fs_get f q = Some x -> fs_get f' q = Some x).
Proof.
  intros base1 base2 w N cs Hg Hbn1 Hop Hfr HM Hmk Hsep HN HN24 HsN Hdn Hsh Hsm Hbs Hfu.
  destruct (copy_run e f path newpath blk newblk dt nmemb Nfile t d b0 rows bs fuel M Hg Hbn1 Hop Hfr HM Hmk Hsep HN HN24 HsN Hdn Hsh Hsm Hbs Hfu) as (f' & E & H1 & H2 & [K _] & _).
  exists f'. auto.
Qed.

Lemma copy_missing e f path newpath blk newblk dt nmemb Nfile t d b0 bs fuel : let base1 := path_join path blk in let base2 := path_join newpath newblk in
  let w := itemsize (e_me e) dt * nmemb in let N := pieces (zlen (t_sizes t)) Nfile in
  block_name base1 -> big_file_open f path = Some path -> fresh e base1 dt nmemb (2 ^ 61) t d f b0 ->
  makeable e f newpath newblk dt nmemb -> ~ prefix_of (resolve base1) (resolve base2) ->
  0 < N -> N <= 2 ^ 24 -> t_size t * N < 2 ^ 64 -> dtype_normalize (e_me e) dt = dt ->
  t_size t * nmemb < 2 ^ 63 -> 0 <= bs < 2 ^ 63 ->
  (bs < w -> 0 < t_size t -> bigfile_copy e f path newpath blk newblk Nfile bs fuel = Diverge) /\
  (w <= bs -> t_size t < Z.of_nat fuel -> (exists r, 0 <= r < t_size t /\ absent t r) ->
   exists f', bigfile_copy e f path newpath blk newblk Nfile bs fuel = Ret (1, f') /\ kept base2 f f').
Proof.
  intros base1 base2 w N Hbn1 Hop Hfr Hmk Hsep HN HN24 HsN Hdn Hsm Hbs.
  destruct (copy_begins e f path newpath blk newblk dt nmemb Nfile t d b0 Hbn1 Hop Hfr Hmk Hsep ltac:(right; exact HN) HN24 HsN Hdn) as (f3 & b1 & b2 & s & G1 & G2 & S2 & Os & Ds & Hnp & Fr & E).
  fold base1 base2 N in G1, G2, S2, Fr, E. fold w in E. rewrite E.
  pose proof Hmk as [[Hp1 Hp2] _ Mn _ _ Mi Mt Md Mc Mw]. fold base2 in Mn. rewrite Hdn in Mt, Md, Mc, Mw. fold w in Mc, Mw.
  assert (Hi : 0 < itemsize (e_me e) dt) by apply Md. assert (Hw : 0 < w) by (unfold w; nia).
  assert (Hne : resolve base2 <> resolve base1) by (intros X; apply Hsep; rewrite X; apply prefix_refl).
  pose proof (fr_inv _ _ _ _ _ _ _ _ _ G1) as I1. pose proof (fr_inv _ _ _ _ _ _ _ _ _ G2) as I2. fold w in I1, I2.
  destruct (hinv_size _ _ _ _ _ _ _ _ I1) as (Es & Ed & En & HL). destruct (hinv_size _ _ _ _ _ _ _ _ I2) as (_ & _ & _ & HL2). pose proof (hl_small _ _ HL) as H63.
  assert (Hts : 0 <= t_size t < 2 ^ 63) by (unfold t_size in *; split; [apply zsum_nonneg; apply HL|lia]).
  pose proof (copy_even (t_size t) N ltac:(lia) ltac:(right; exact HN) HsN) as (V1 & V2 & V3).
  split.
  - intros Hb Hs. replace (0 <? t_size t) with true by lia. rewrite Z.div_small by lia.
    rewrite (copy_stuck e base1 dt nmemb t f3 b1 (set_attrs b2 s) 0 Hbn1 Mt Mi Mc Mw Md I1 ltac:(lia)); [reflexivity|].
    intros p. destruct (seek_nonneg b2 _ p 0 HL2 ltac:(cbn [new_table t_sizes]; fold N; rewrite V2; lia)) as (q & Eq & _). exists q. exact Eq.
  - intros Hb Hfu Hab. replace (0 <? t_size t) with true by (destruct Hab as (r & Hr & _); lia).
    assert (Hch : 0 < bs / w < 2 ^ 63). { split; [apply Z.div_str_pos; lia|]. apply Z.le_lt_trans with bs; [apply Z.div_le_upper_bound; nia|lia]. }
    destruct (copy_absent e base1 base2 dt nmemb Hbn1 Mn Hne Mt Mi Mc Mw Md t b1 (bs / w) s Hch Hsm fuel _ f3 b2 (mkPtr 0 0 0) 0 ltac:(lia) ltac:(lia) I1 I2 V2 Hab) as (f' & b' & X1 & X2).
    rewrite X1. cbn [bind]. change (negb (1 =? 0)) with true. cbv iota. exists f'. split; [reflexivity|]. eapply kept_trans; [exact Fr|apply kept_frames, dframe_frames; exact X2].
Qed.

(* the life of a block from the start *)
Lemma live_kept e f path blk d nmemb sizes rs : let base := path_join path blk in let dt := dtype_normalize (e_me e) d in
  g_clean e -> makeable e f path blk d nmemb -> layout_ok sizes -> zlen sizes <= 2 ^ 24 -> rounds_ok (e_me e) dt nmemb sizes rs -> attr_bytes (e_me e) rs <= 2 ^ 61 ->
  exists f' t M dd b0, make_and_use e f path blk d nmemb sizes rs = Ret (Some (0, f')) /\ lives (e_me e) dt nmemb (new_table sizes) (fun _ => None) rs t M /\
    fresh e base dt nmemb (attr_bytes (e_me e) rs) t dd f' b0 /\ (forall k, assoc k dd = M k) /\ big_file_open f' path = Some path /\
    kept base f f' /\ way_made f' (resolve base).
Proof.
  intros base dt Hg Hmk Hlo HN Hrs Hab. destruct (prepare _ _ _ _ _ _ Hmk) as (f1 & E1 & O1 & M1 & C1 & A1 & N1). fold base in C1, A1.
  pose proof Hmk as [[Hp1 Hp2] _ Mn _ _ Mi Mt Md Mc Mw]. fold base in Mn. fold dt in Mt, Md, Mc, Mw.
  destruct (block_place f1 path blk Mn M1 C1 A1) as (f2 & E2 & D2 & A2 & N2). fold base in D2, A2, N2.
  destruct (mksubdir_succeeds f1 path blk) as (f2' & E2' & W2).
  { pose proof (join_len path blk). pose proof (proj1 (proj2 Mn)). fold base in H. lia. }
  { fold base. intros X. pose proof (proj1 Mn) as Y. rewrite X in Y. discriminate Y. }
  { exact M1. } { apply C1. }
  fold base in W2. rewrite E2 in E2'. injection E2' as <-.
  destruct (fresh_create e f2 base d nmemb sizes Mn D2 Hlo HN A2 ltac:(lia) Md) as (f3 & b2 & E3 & G3 & S3). fold dt in G3.
  pose proof (create_frames _ _ _ _ _ _ _ _ _ (proj1 (proj2 Mn)) E3) as Fr3.
  destruct (rounds_run e base dt nmemb Hg Mn Mt Mi Mc Mw rs 0 (new_table sizes) [] (fun _ => None) f3 b2 ltac:(lia) G3 ltac:(reflexivity) Hrs) as (f4 & b4 & t & M & dd & E4 & L4 & G4 & A4 & Fr4).
  unfold make_and_use. rewrite E1. unfold big_file_create_block. rewrite E2. change (0 =? 0) with true. cbv iota. fold base. rewrite E3. cbn [bind]. rewrite E4. cbn [bind].
  unfold big_block_close. rewrite (clean_flush e f4 b4 (fr_clean _ _ _ _ _ _ _ _ _ G4) (hv_clean _ _ _ _ _ _ _ _ (fr_inv _ _ _ _ _ _ _ _ _ G4))). cbn [bind].
  assert (Fr : kept base f1 f4).
  { eapply kept_trans; [eapply kept_dirs; [exact N2|apply prefix_refl]|]. eapply kept_trans; apply kept_frames; [exact Fr3|exact Fr4]. }
  exists f4, t, M, dd, b4. split; [reflexivity|]. split; [exact L4|]. split; [exact G4|]. split; [exact A4|]. split; [|split].
  - unfold big_file_open in *. destruct path as [|c p]; [contradiction|]. rewrite (proj1 Fr _ Dir); [rewrite strdup_id by exact Hp2; reflexivity| |apply M1, prefix_refl]. intros X. exact (own_shorter (c :: p) blk _ ltac:(discriminate) X eq_refl).
  - eapply kept_trans; [eapply kept_dirs; [exact N1|apply join_under; exact Hp1]|exact Fr].
  - intros q Hq. rewrite Fr4, Fr3; [apply W2; exact Hq| |]; intros X; destruct (in_block_app base q (or_introl X)) as (c & ->); apply (not_longer (resolve base) c); exact Hq.
Qed.
Lemma live_bytes e f path blk d nmemb sizes rs : let base := path_join path blk in let dt := dtype_normalize (e_me e) d in
  g_clean e -> makeable e f path blk d nmemb -> layout_ok sizes -> zlen sizes <= 2 ^ 24 -> rounds_ok (e_me e) dt nmemb sizes rs -> attr_bytes (e_me e) rs <= 2 ^ 61 ->
  exists f' t M dd b0, make_and_use e f path blk d nmemb sizes rs = Ret (Some (0, f')) /\ lives (e_me e) dt nmemb (new_table sizes) (fun _ => None) rs t M /\
    fresh e base dt nmemb (attr_bytes (e_me e) rs) t dd f' b0 /\ (forall k, assoc k dd = M k) /\ big_file_open f' path = Some path /\
    (forall q x, ~ own_file base q -> fs_get f q = Some x -> fs_get f' q = Some x).
Proof.
  intros base dt Hg Hmk Hlo HN Hrs Hab. destruct (live_kept e f path blk d nmemb sizes rs Hg Hmk Hlo HN Hrs Hab) as (f' & t & M & dd & b0 & E & L & F & A & O & [K _] & _).
  exists f', t, M, dd, b0. auto 10.
Qed.
Lemma live e f path blk d nmemb sizes rs : let base := path_join path blk in let dt := dtype_normalize (e_me e) d in
  g_clean e -> makeable e f path blk d nmemb -> layout_ok sizes -> zlen sizes <= 2 ^ 24 -> rounds_ok (e_me e) dt nmemb sizes rs -> attr_bytes (e_me e) rs <= 2 ^ 61 ->
  exists f' t M dd b0, make_and_use e f path blk d nmemb sizes rs = Ret (Some (0, f')) /\ lives (e_me e) dt nmemb (new_table sizes) (fun _ => None) rs t M /\
    fresh e base dt nmemb (2 ^ 61) t dd f' b0 /\ (forall k, assoc k dd = M k) /\ big_file_open f' path = Some path /\
    (forall q x, ~ own_file base q -> fs_get f q = Some x -> fs_get f' q = Some x).
Proof.
  intros base dt Hg Hmk Hlo HN Hrs Hab. destruct (live_bytes e f path blk d nmemb sizes rs Hg Hmk Hlo HN Hrs Hab) as (f' & t & M & dd & b0 & E & L & F & R).
  exists f', t, M, dd, b0. split; [exact E|]. split; [exact L|]. split; [|exact R]. destruct F. constructor; auto; lia.
Qed.

(* more files than a header can number *)
Lemma copy_many e f path newpath blk newblk dt nmemb Nfile t b0 bs fuel : let base1 := path_join path blk in let base2 := path_join newpath newblk in
  block_name base1 -> big_file_open f path = Some path -> fresh e base1 dt nmemb (2 ^ 61) t [] f b0 ->
  makeable e f newpath newblk dt nmemb -> ~ prefix_of (resolve base1) (resolve base2) -> dtype_normalize (e_me e) dt = dt ->
  t_size t = 0 -> t_sizes t <> [] -> 2 ^ 24 < Nfile < 2 ^ 31 ->
  exists f', bigfile_copy e f path newpath blk newblk Nfile bs fuel = Ret (0, f') /\ big_file_open_block e f' newpath newblk = Ret None.
Proof.
  intros base1 base2 Hbn1 Hop1 Hfr Hmk Hsep Hdn Hz Hne0 HN.
  destruct (prepare _ _ _ _ _ _ Hmk) as (f1 & E1 & O1 & M1 & C1 & A1 & N1). fold base2 in C1, A1.
  pose proof Hmk as [[Hp1 Hp2] _ Mn _ _ Mi Mt Md Mc Mw]. fold base2 in Mn. rewrite Hdn in Mt, Md, Mc, Mw.
  assert (Hpre : prefix_of (resolve newpath) (resolve base2)) by (apply join_under; exact Hp1).
  assert (Hsep1 : ~ prefix_of (resolve base1) (resolve newpath)) by (intros X; apply Hsep; eapply prefix_trans; eauto).
  pose proof (fresh_same _ _ _ _ _ _ _ _ _ _ (dirs_same base1 f f1 _ N1 Hsep1) Hfr) as F1.
  destruct (fresh_open e base1 dt nmemb Hbn1 Mt Mi (2 ^ 61) t [] f1 b0 (fr_inv _ _ _ _ _ _ _ _ _ F1) (fr_clean _ _ _ _ _ _ _ _ _ F1) ltac:(lia) (fr_file _ _ _ _ _ _ _ _ _ F1)
    (fr_no1 _ _ _ _ _ _ _ _ _ F1) (ok_sorted _ _ _ (fr_ok _ _ _ _ _ _ _ _ _ F1)) (fr_sv _ _ _ _ _ _ _ _ _ F1) (fr_le _ _ _ _ _ _ _ _ _ F1) (fr_tot _ _ _ _ _ _ _ _ _ F1)) as (b1 & Eb1 & G1 & _).
  destruct (block_place f1 newpath newblk Mn M1 C1 A1) as (f2 & E2 & D2 & A2 & N2). fold base2 in D2, A2, N2.
  pose proof (fr_inv _ _ _ _ _ _ _ _ _ G1) as I1. destruct (hinv_size _ _ _ _ _ _ _ _ I1) as (Es & Ed & En & HL).
  pose proof (copy_even 0 Nfile ltac:(lia) ltac:(right; lia) ltac:(lia)) as Hev. set (cs := copy_sizes 0 Nfile) in *. destruct Hev as (V1 & V2 & V3).
  pose proof (even_layout 0 Nfile cs ltac:(lia) ltac:(lia) (conj V1 (conj V2 V3))) as Hlo.
  destruct (create_spec e f2 base2 dt nmemb cs Mn D2 Hlo) as (f3 & b2 & E3 & L2 & T2 & n2 & B2 & K2 & Dy & Da & _ & _ & H2 & _ & _ & O3). rewrite Hdn in T2.
  pose proof (fr_ok _ _ _ _ _ _ _ _ _ G1) as Ok1. pose proof (ok_rep _ _ _ Ok1) as Rp. inversion Rp as [X|]. symmetry in X.
  assert (Hzl : zlen (t_sizes t) <> 0) by (destruct (t_sizes t); [congruence|unfold zlen; cbn [length]; lia]).
  exists f3. split.
  - unfold bigfile_copy. rewrite Hop1, E1. unfold big_file_open_block. fold base1. rewrite Eb1. cbn [bind].
    rewrite (hl_Nfile _ _ HL), Es, Ed, En, Hz. replace (Nfile =? -1) with false by lia. replace (zlen (t_sizes t) =? 0) with false by lia. cbn [orb].
    replace (Nfile + 10 <=? 0) with false by lia. unfold big_file_create_block. rewrite E2. change (0 =? 0) with true. cbv iota. fold base2 cs. rewrite <- V1, E3. cbn [bind].
    rewrite (hl_size _ _ L2), V2. change (negb (0 =? 0)) with false. cbv iota. rewrite X. cbn [copy_attrs bind]. change (0 <? 0) with false. rewrite andb_false_r. cbn [bind].
    change (negb (0 =? 0)) with false. cbv iota. unfold big_block_close. rewrite (clean_flush e f3 b2 Dy Da). cbn [bind]. change (negb (0 =? 0)) with false. cbv iota.
    rewrite (clean_flush e f3 b1 (fr_clean _ _ _ _ _ _ _ _ _ G1) (hv_clean _ _ _ _ _ _ _ _ I1)). reflexivity.
  - unfold big_file_open_block. fold base2. rewrite open_split by exact Mn.
    assert (Ha1 : fs_get f3 (attr1_path base2) = None).
    { rewrite O3; [exact A2|]. intros [Y|[Y|(j & Hj & Y)]]; [symmetry in Y; revert Y; apply header_not_attr1|revert Y; apply attr1_not_attr2|symmetry in Y; revert Y; apply data_not_attr1; lia]. }
    destruct (create_spec e f2 base2 dt nmemb cs Mn D2 Hlo) as (f3' & b2' & E3' & _ & _ & _ & _ & _ & _ & _ & _ & _ & _ & Q2 & _). rewrite E3 in E3'. injection E3' as <- <-.
    destruct (open_attrs_none e f3 base2 Ha1) as (sa & Es1 & _ & _); [right; exact Q2|]. rewrite Es1. cbn [bind]. rewrite H2.
    rewrite (parse_table_exact b2 cs L2); [|rewrite T2; destruct Mt as (W1 & W2 & W3); split; [intros Y; rewrite Y in W1; discriminate W1|split; assumption]|rewrite n2; lia].
    + unfold acceptable. rewrite V1. replace (Nfile <=? 2 ^ 24) with false by lia. rewrite andb_false_r. reflexivity.
Qed.
