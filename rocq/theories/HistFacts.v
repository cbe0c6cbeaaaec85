(* Proofs about histories of block operations. *)
From Coq.Strings Require Import Byte String.
From Coq Require Import List ZArith Lia Bool ZifyBool ZifyNat.
From Verif Require Import Base BaseFacts Dtype Cast Array FS Fmt Attr Block Spec AttrSpec OpenSpec HistSpec
  SeekFacts FSFacts ArrayFacts ConvFacts WriteFacts ReadFacts TableFacts IOFacts
  HeaderFacts DtypeFacts AttrFacts TextFacts OpenFacts ReopenFacts SessFacts.
Import ListNotations.
Open Scope Z_scope.
Local Open Scope out_scope.
Ltac Zify.zify_post_hook ::= Z.div_mod_to_equations.

(* ------------------------------------------------ reading a missing row *)
Lemma Forall_choice {A B} (P : A -> B -> Prop) (Q : A -> Prop) l : (forall a, Q a -> exists b, P a b) ->
  Forall Q l -> exists l', Forall2 P l l'.
Proof.
  intros H. induction 1 as [|a l Ha Hl (l' & IH)]; [exists []; constructor|].
  destruct (H a Ha) as [b Hb]. exists (b :: l'). constructor; auto.
Qed.

Lemma wrote_frame m m' addr w k vs : wrote m m' addr w k vs -> forall x, ~ in_elems addr w k (zlen vs) x -> m' x = m x.
Proof. intros [_ H]. exact H. Qed.

Lemma read_loop_missing e sizes w a cs : array_ok a -> dt_ok (e_me e) (a_dtype a) -> 0 < cs ->
  forall fuel n f b p cb um ai o k,
  wblock e b sizes w ->
  convertible (e_me e) (b_dtype b) (a_dtype a) ->
  (forall v, length v = Z.to_nat (itemsize (e_me e) (b_dtype b)) -> exists r, converts (e_me e) (b_dtype b) (a_dtype a) v r) ->
  buf_mapped cb (cs * w) ->
  iter_at (e_me e) ai a k -> 0 <= k -> k + n * b_nmemb b <= a_size a ->
  mapped um (elem_addr a) (itemsize (e_me e) (a_dtype a)) k (n * b_nmemb b) ->
  elems_disjoint (elem_addr a) (itemsize (e_me e) (a_dtype a)) k (n * b_nmemb b) ->
  ptr_at sizes p o -> o + n <= zsum sizes -> n < Z.of_nat fuel ->
  (exists r, o <= r < o + n /\ stored_row f (b_base b) sizes w r = None) ->
  exists p' um',
    read_loop e f b p cb (chunk_array (e_me e) b cs) um ai cs n fuel = Ret (-1, p', um') /\
    (forall x, ~ in_elems (elem_addr a) (itemsize (e_me e) (a_dtype a)) k (n * b_nmemb b) x -> um' x = um x).
Proof.
  intros Ha Hda Hcs. induction fuel as [|fuel IH];
    intros n f b p cb um ai o k HW Hconv Htot Hcb Hi Hk0 Hk Hm Hd Hp Ho Hfuel (r & Hr & Hmiss); [lia|].
  pose proof (wb_layout _ _ _ _ HW) as HL. pose proof (wb_nmemb _ _ _ _ HW) as Hnm.
  assert (Hw : 0 < w) by (eapply wb_wpos; eauto). pose proof (wb_felsize _ _ _ _ HW) as Hfel.
  assert (Hisa : 0 < itemsize (e_me e) (a_dtype a)) by apply Hda.
  assert (Hisb : 0 < itemsize (e_me e) (b_dtype b)) by apply HW.
  pose proof (pa_range _ _ _ Hp) as Hor.
  destruct (ptr_in _ _ _ _ HL Hp ltac:(lia)) as (Pf & Pr & Ph).
  set (i := Z.to_nat (p_fileid p)) in *.
  set (c := Z.min (Z.min cs (nth i sizes 0 - p_roffset p)) n).
  assert (Hc1 : 1 <= c <= cs /\ c <= n /\ p_roffset p + c <= nth i sizes 0) by lia.
  assert (Hwhole : (exists cont, data_file f (b_base b) i = Some cont /\ (p_roffset p + c) * w <= zlen cont) \/
    ~ (exists cont, data_file f (b_base b) i = Some cont /\ (p_roffset p + c) * w <= zlen cont)).
  { destruct (data_file f (b_base b) i) as [cont|]; [|right; intros (? & X & _); discriminate].
    destruct (Z_le_dec ((p_roffset p + c) * w) (zlen cont)); [left; eauto|right]. intros (? & X & ?). injection X as <-. lia. }
  assert (Hpath : data_path (b_base b) (p_fileid p) = data_path (b_base b) (Z.of_nat i)) by (unfold i; f_equal; lia).
  destruct Hwhole as [(cont & Hcont & Hlen)|Hno].
  - (* the chunk is there *)
    set (sl := firstn (Z.to_nat (c * w)) (skipn (Z.to_nat (p_roffset p * w)) cont)).
    assert (Hsl : length sl = Z.to_nat (c * w)).
    { unfold sl, zlen in *. rewrite firstn_length, skipn_length. nia. }
    set (es := group (Z.to_nat (itemsize (e_me e) (b_dtype b))) (Z.to_nat (c * b_nmemb b)) sl).
    assert (Hslw : length sl = (Z.to_nat (c * b_nmemb b) * Z.to_nat (itemsize (e_me e) (b_dtype b)))%nat).
    { rewrite Hsl, (wb_w _ _ _ _ HW). nia. }
    assert (Les : zlen es = c * b_nmemb b) by (unfold zlen, es; rewrite WriteFacts.group_length; nia).
    assert (Wes : Forall (fun v => length v = Z.to_nat (itemsize (e_me e) (b_dtype b))) es) by (apply group_lengths; auto).
    destruct (Forall_choice _ _ es Htot Wes) as (outs & Ho2).
    assert (Lo : zlen outs = zlen es) by (apply Forall2_length in Ho2; unfold zlen; lia).
    destruct (read_step e sizes w a cs Ha Hda Hcs n f b p cb um ai o k c cont es outs fuel)
      as (p1 & cb1 & um1 & ai1 & -> & B1 & I1 & P1 & W1); auto; try lia; try nia.
    { unfold es. rewrite group_concat by lia. reflexivity. }
    { eapply mapped_sub; eauto; nia. }
    { eapply disjoint_sub; eauto; nia. }
    assert (Hrc : o + c <= r).
    { destruct (Z_lt_dec r (o + c)) as [Hlt|]; [exfalso|lia]. unfold stored_row in Hmiss.
      assert (Hh : home sizes r = Some (i, p_roffset p + (r - o))).
      { replace r with (o + (r - o)) at 1 by lia. apply home_next; auto; try lia. apply HL. }
      rewrite Hh, Hcont in Hmiss.
      replace ((p_roffset p + (r - o) + 1) * w <=? zlen cont) with true in Hmiss by nia. discriminate. }
    destruct (IH (n - c) f b p1 cb1 um1 ai1 (o + c) (k + zlen es)) as (p' & um' & E & F); auto; try lia; try nia.
    { eapply wrote_mapped with (k := k) (vs := outs); eauto; try lia.
      - rewrite Lo. eapply mapped_sub; eauto; nia.
      - eapply mapped_sub; eauto; nia. }
    { eapply disjoint_sub; eauto; nia. }
    { exists r. split; [lia|auto]. }
    exists p', um'. split; auto. intros x Hx. rewrite F.
    + apply (wrote_frame _ _ _ _ _ _ W1). intros (j & Hj & Hx'). apply Hx. exists j. split; [nia|auto].
    + intros (j & Hj & Hx'). apply Hx. exists j. split; [nia|auto].
  - (* the chunk is not *)
    exists p, um. split; [|auto].
    cbn [read_loop]. replace (0 <? n) with true by lia. cbn [negb].
    rewrite (eof_spec _ _ _ _ HL Hp). cbn [bind]. replace (o =? zsum sizes) with false by lia.
    destruct (next_chunk_spec b sizes p o cs n HL Hp ltac:(lia) ltac:(lia) ltac:(lia)) as (c' & -> & Hc'). cbn [bind].
    fold i in Hc'. fold c in Hc'. subst c'. replace (c =? 0) with false by lia.
    rewrite Hpath. unfold fopen_r, data_file in *. rewrite Hfel. replace (p_roffset p * w <? 0) with false by nia.
    destruct (fs_get f (data_path (b_base b) (Z.of_nat i))) as [[|cont]|] eqn:Eg.
    + cbn [store or_ub bind]. destruct (Nat.eqb_spec (length (@nil byte)) (Z.to_nat (c * w))) as [E|E]; [simpl in E; nia|].
      reflexivity.
    + set (l := pread cont (Z.to_nat (p_roffset p * w)) (Z.to_nat (c * w))).
      assert (Hl : (length l < Z.to_nat (c * w))%nat).
      { unfold l, pread, zlen in *. rewrite firstn_length, skipn_length.
        assert (~ (p_roffset p + c) * w <= Z.of_nat (length cont)) by (intros X; apply Hno; eauto). nia. }
      destruct (store_some l cb 0) as (cb1 & ->).
      { intros j Hj. apply Hcb. nia. }
      cbn [or_ub bind]. destruct (Nat.eqb_spec (length l) (Z.to_nat (c * w))) as [E|E]; [lia|]. reflexivity.
    + reflexivity.
Qed.

Lemma read_missing e sizes w a f b p um o n :
  wblock e b sizes w -> w <= e_chunk e -> w < 2 ^ 31 ->
  array_ok a -> dt_ok (e_me e) (a_dtype a) ->
  convertible (e_me e) (b_dtype b) (a_dtype a) ->
  (forall v, length v = Z.to_nat (itemsize (e_me e) (b_dtype b)) -> exists r, converts (e_me e) (b_dtype b) (a_dtype a) v r) ->
  n = a_size a / b_nmemb b ->
  mapped um (elem_addr a) (itemsize (e_me e) (a_dtype a)) 0 (n * b_nmemb b) ->
  elems_disjoint (elem_addr a) (itemsize (e_me e) (a_dtype a)) 0 (n * b_nmemb b) ->
  ptr_at sizes p o -> o + n <= zsum sizes ->
  (exists r, o <= r < o + n /\ stored_row f (b_base b) sizes w r = None) ->
  exists p' um',
    big_block_read e f b p a um = Ret (-1, p', um') /\
    (forall x, ~ in_elems (elem_addr a) (itemsize (e_me e) (a_dtype a)) 0 (n * b_nmemb b) x -> um' x = um x).
Proof.
  intros HW Hwc Hw31 Ha Hda Hconv Htot Hn Hm Hd Hp Ho Hmiss.
  assert (Hsz : 0 < a_size a) by (rewrite (ao_size _ Ha); apply zprod_pos; apply Ha).
  pose proof (wb_wpos _ _ _ _ HW) as Hwp. pose proof (wb_nmemb _ _ _ _ HW) as Hnm.
  unfold big_block_read.
  rewrite (wb_felsize _ _ _ _ HW). replace (2 ^ 31 <=? Z.abs w) with false by lia.
  replace (w =? 0) with false by lia. cbv zeta.
  rewrite (chunk_array_init (e_me e) b) by apply HW. cbn [bind].
  rewrite (chunk_rows_spec _ _ _ _ HW) by auto.
  pose proof (wb_layout _ _ _ _ HW) as HL.
  rewrite (ptr_offset _ _ _ _ HL Hp). cbn [or_ub bind].
  rewrite (pa_abs _ _ _ Hp). rewrite row_nmemb_pos by apply Hnm. rewrite <- Hn.
  assert (Hn0 : 0 <= n) by (subst n; apply Z.div_pos; lia).
  pose proof (pa_range _ _ _ Hp). pose proof (hl_small _ _ HL).
  rewrite s64_id by lia. rewrite u64_id by lia. rewrite (hl_size _ _ HL).
  replace (zsum sizes <? o + n) with false by lia.
  apply (read_loop_missing e sizes w a (e_chunk e / w) Ha Hda ltac:(apply Z.div_str_pos; lia)
     (S (Z.to_nat n)) n f b p (chunk_mem e) um (iter_init (e_me e) a) o 0); auto; try lia.
  - apply chunk_mem_mapped. rewrite Z.mul_comm. apply Z.mul_div_le. lia.
  - apply iter_init_at; auto.
Qed.

(* ------------------------------------------------------------- sums *)
Lemma add_sums_nth sizes rows i : forall cks o s, (i < length cks)%nat -> nth i cks 0 = s mod 2 ^ 32 ->
  nth i (add_sums cks sizes o rows) 0 = (s + bytes_into sizes i o rows) mod 2 ^ 32.
Proof.
  induction rows as [|v rows IH]; intros cks o s Hi Hs; cbn [add_sums bytes_into]; [rewrite Z.add_0_r; auto|].
  rewrite Z.add_assoc. apply IH; [rewrite add_sum_length; auto|].
  rewrite add_sum_nth. destruct (home sizes o) as [[k q]|]; [|rewrite Z.add_0_r; auto].
  rewrite (Nat.eqb_sym i k). destruct (Nat.eqb_spec k i) as [->|]; cbn [andb]; [|rewrite Z.add_0_r; auto].
  replace (i <? length cks)%nat with true by (symmetry; apply Nat.ltb_lt; auto).
  rewrite Hs, Z.add_mod_idemp_l by lia. reflexivity.
Qed.

Lemma add_sums_range sizes rows : forall cks o, Forall (fun c => 0 <= c < 2 ^ 32) cks ->
  Forall (fun c => 0 <= c < 2 ^ 32) (add_sums cks sizes o rows).
Proof.
  induction rows as [|v rows IH]; intros cks o H; cbn [add_sums]; auto. apply IH. unfold add_sum.
  destruct (home sizes o) as [[i q]|]; auto. apply upd_Forall; auto. apply Z.mod_pos_bound. lia.
Qed.

Lemma app_inj_len {A} (a a' b b' : list A) : a ++ b = a' ++ b' -> length a = length a' -> a = a' /\ b = b'.
Proof.
  revert a'. induction a as [|x a IH]; intros [|x' a'] E L; try discriminate L; auto.
  injection E as -> E. injection L as L. destruct (IH a' E L) as [-> ->]. auto.
Qed.

Lemma bytes_into_out sizes i rows : (length sizes <= i)%nat -> forall o, bytes_into sizes i o rows = 0.
Proof.
  intros Hi. induction rows as [|v rows IH]; intros o; cbn [bytes_into]; auto. rewrite IH.
  destruct (home sizes o) as [[k q]|] eqn:E; auto. apply home_lt in E. destruct (Nat.eqb_spec k i); auto. lia.
Qed.

Lemma nth_repeat0_z n : forall k, nth k (repeat 0 n) 0 = 0.
Proof. induction n; intros [|k]; simpl; auto. Qed.

(* -------------------------------------------------------- invariant *)
Record hinv (e : env) (base dt : bytes) (nmemb w : Z) (t : table) (f : fs) (b : block) : Prop := {
  hv_base : b_base b = base;
  hv_dt : b_dtype b = dt;
  hv_nm : b_nmemb b = nmemb;
  hv_wb : wblock e b (t_sizes t) w;
  hv_N : zlen (t_sizes t) <= 2 ^ 24;
  hv_dir : block_dir f base;
  hv_files : files_exist f base (t_sizes t);
  hv_whole : whole_rows f base (t_sizes t) w;
  hv_row : forall r v, t_row t r = Some v -> stored_row f base (t_sizes t) w r = Some v;
  hv_zero : forall r v, stored_row f base (t_sizes t) w r = Some v -> shows w t r v;
  hv_hdr : b_dirty b = false -> fs_get f (header_path base) = Some (File (table_text b (t_sizes t)));
  hv_att : exists s, open_attrs e f base = Ret (Some s) /\ as_dirty s = false;
  hv_clean : as_dirty (b_attrset b) = false;
  hv_sum : forall i, (i < length (t_sizes t))%nat -> nth i (b_fchecksum b) 0 = t_sum t i mod 2 ^ 32;
  hv_unborn : forall i, (length (t_sizes t) <= i)%nat -> t_sum t i = 0
}.

Lemma stored_home f base sizes w r v : stored_row f base sizes w r = Some v -> exists i q, home sizes r = Some (i, q).
Proof. unfold stored_row. destruct (home sizes r) as [[i q]|]; [eauto|discriminate]. Qed.
Lemma home_range sizes r i q : Forall (fun s => 0 <= s) sizes -> home sizes r = Some (i, q) -> 0 <= r < zsum sizes.
Proof.
  intros Hn H. destruct (Z_lt_dec r 0); [rewrite home_none in H by (auto; lia); discriminate|].
  destruct (Z_le_dec (zsum sizes) r); [rewrite home_none in H by (auto; lia); discriminate|]. lia.
Qed.

Section Step.
  Variables (e : env) (base dt : bytes) (nmemb w : Z).
  Hypothesis Hbn : block_name base.
  Hypothesis Hty : header_type dt.
  Hypothesis Hnm31 : nmemb < 2 ^ 31.
  Hypothesis Hwc : w <= e_chunk e.
  Hypothesis Hw31 : w < 2 ^ 31.
  Notation inv := (hinv e base dt nmemb w).

  Lemma inv_nonneg t f b : inv t f b -> Forall (fun s => 0 <= s) (t_sizes t).
  Proof. intros I. apply (wb_layout _ _ _ _ (hv_wb _ _ _ _ _ _ _ _ I)). Qed.

  Lemma inv_shows t f b r v : inv t f b -> shows w t r v -> stored_row f base (t_sizes t) w r = Some v.
  Proof.
    intros I [H|(Hn & -> & r2 & Hr & Hs & H2)]; [eapply hv_row; eauto|].
    destruct (t_row t r2) as [v2|] eqn:E2; [|congruence].
    pose proof (inv_nonneg _ _ _ I) as Hnn. pose proof (wb_wpos _ _ _ _ (hv_wb _ _ _ _ _ _ _ _ I)) as Hw.
    pose proof (hv_row _ _ _ _ _ _ _ _ I _ _ E2) as Hst.
    destruct (stored_before f base (t_sizes t) w r2 r v2) as (u & Hu); auto; try lia.
    { destruct Hs as (i & q & q' & A & B). exists i, q', q. auto. }
    destruct (hv_zero _ _ _ _ _ _ _ _ I _ _ Hu) as [X|(_ & -> & _)]; [congruence|auto].
  Qed.

  Lemma inv_absent t f b r : inv t f b -> absent t r -> stored_row f base (t_sizes t) w r = None.
  Proof.
    intros I [H1 H2]. destruct (stored_row f base (t_sizes t) w r) as [v|] eqn:E; auto. exfalso.
    destruct (hv_zero _ _ _ _ _ _ _ _ I _ _ E) as [X|(_ & _ & r2 & Hr & Hs & Hx)]; [congruence|]. apply Hx. auto.
  Qed.

  Lemma hist_flush t f b : inv t f b ->
    exists f', big_block_flush e f b = Ret (0, f', set_bdirty b false) /\ inv t f' (set_bdirty b false) /\
      (sums_ok f base (t_sizes t) (b_fchecksum b) -> sums_ok f' base (t_sizes t) (b_fchecksum b)) /\
      fs_get f' (header_path base) = Some (File (table_text b (t_sizes t))).
  Proof.
    intros I. pose proof (wb_layout _ _ _ _ (hv_wb _ _ _ _ _ _ _ _ I)) as HL.
    destruct (b_dirty b) eqn:Eb.
    - destruct (flush_table e f b (t_sizes t)) as (f' & E & Hd' & Hh & O); auto.
      { rewrite (hv_base _ _ _ _ _ _ _ _ I). apply I. } { apply I. }
      rewrite (hv_base _ _ _ _ _ _ _ _ I) in *.
      assert (Hdf : forall i, data_file f' base i = data_file f base i).
      { intros i. unfold data_file. rewrite O; auto. apply data_not_header. lia. }
      assert (Hst : forall r, stored_row f' base (t_sizes t) w r = stored_row f base (t_sizes t) w r).
      { intros r. unfold stored_row. destruct (home _ r) as [[i q]|]; auto. rewrite Hdf. auto. }
      exists f'. split; [exact E|]. split; [|split; auto].
      + destruct I. constructor; auto.
        * apply wb_dirty. auto.
        * intros i Hi. rewrite Hdf. auto.
        * intros i c Hi Hc. rewrite Hdf in Hc. eauto.
        * intros r v Hr. rewrite Hst. auto.
        * intros r v Hr. rewrite Hst in Hr. auto.
        * destruct hv_att0 as (s & Hs & Hd). exists s. split; auto. rewrite <- Hs. apply open_attrs_frame; apply O;
            intros X; symmetry in X; revert X; [apply header_not_attr1|apply header_not_attr2].
      + intros Hs i c Hi Hc. rewrite Hdf in Hc. apply Hs; auto.
    - exists f. assert (Eb' : set_bdirty b false = b) by (destruct b; simpl in *; subst; reflexivity).
      rewrite Eb'. split; [|split; [exact I|split; [auto|apply I; auto]]].
      unfold big_block_flush. rewrite Eb. cbn [bind]. change (negb (0 =? 0)) with false. cbv iota.
      rewrite (hv_clean _ _ _ _ _ _ _ _ I). reflexivity.
  Qed.

  Lemma hist_reopen t f b : inv t f b -> exists f' b', hstep e (f, b) HReopen = Ret ((0, None), (f', b')) /\ inv t f' b' /\
    (sums_ok f base (t_sizes t) (b_fchecksum b) -> sums_ok f' base (t_sizes t) (b_fchecksum b')).
  Proof.
    intros I. destruct (hist_flush t f b I) as (f' & E & I' & Hso & Hh).
    cbn [hstep]. unfold big_block_close. rewrite E. cbn [bind].
    rewrite (hv_base _ _ _ _ _ _ _ _ I). destruct (hv_att _ _ _ _ _ _ _ _ I') as (s & Hs & Hsd).
    rewrite (open_by_header _ _ _ _ _ Hbn Hs Hh).
    pose proof (wb_layout _ _ _ _ (hv_wb _ _ _ _ _ _ _ _ I)) as HL.
    pose proof (wb_nmemb _ _ _ _ (hv_wb _ _ _ _ _ _ _ _ I)) as Hnm.
    rewrite (parse_table b (t_sizes t) HL); [|rewrite (hv_dt _ _ _ _ _ _ _ _ I); auto|rewrite (hv_nm _ _ _ _ _ _ _ _ I) in *; lia|apply I].
    cbn [bind].
    destruct (read_back_block base s b (t_sizes t) HL (eq_sym (hv_base _ _ _ _ _ _ _ _ I))) as (S1 & S2 & S3 & S4).
    set (b2 := block_of_header base s (read_back b (t_sizes t))) in *.
    assert (Hck : forall i, (i < length (t_sizes t))%nat -> nth i (b_fchecksum b2) 0 = nth i (b_fchecksum b) 0).
    { intros i Hi. pose proof (st_cks _ _ S1) as Hc. rewrite (hl_Nfile _ _ HL), (hl_Nfile _ _ S2) in Hc.
      assert (Hn : forall l : list Z, nth i l 0 = nth i (firstn (Z.to_nat (zlen (t_sizes t))) l) 0).
      { intros l. rewrite <- (firstn_skipn (Z.to_nat (zlen (t_sizes t))) l) at 1.
        destruct (Nat.lt_ge_cases i (length l)) as [Hl|Hl].
        - apply app_nth1. rewrite firstn_length. unfold zlen. lia.
        - rewrite firstn_all2, skipn_all2, app_nil_r by (unfold zlen; lia). auto. }
      rewrite (Hn (b_fchecksum b2)), (Hn (b_fchecksum b)), Hc. auto. }
    exists f', b2. split; [reflexivity|]. split.
    - destruct I'. cbn [set_bdirty b_base b_dtype b_nmemb b_fchecksum] in *. constructor; auto.
      + destruct hv_wb0. cbn [set_bdirty b_dtype b_nmemb] in *. constructor; auto.
      + intros _. rewrite Hh. f_equal. f_equal. symmetry. apply table_text_same; auto.
      + intros i Hi. rewrite Hck by auto. auto.
    - intros Hs0 i c Hi Hc. rewrite Hck by auto. apply Hso; auto.
  Qed.

  Lemma path_dec (p q : path) : {p = q} + {p <> q}.
  Proof. destruct (path_eqb p q) eqn:E; [left; apply path_eqb_eq; auto|right; apply path_eqb_neq; auto]. Qed.

  Lemma touched_dec (sizes : list Z) (q : path) :
    (exists i, (i < length sizes)%nat /\ q = data_path base (Z.of_nat i)) \/
    (forall i, (i < length sizes)%nat -> q <> data_path base (Z.of_nat i)).
  Proof.
    destruct (in_dec path_dec q (map (fun i => data_path base (Z.of_nat i)) (seq 0 (length sizes)))) as [H|H].
    - left. apply in_map_iff in H. destruct H as (i & E & Hi). apply in_seq in Hi. exists i. split; [lia|auto].
    - right. intros i Hi E. apply H. apply in_map_iff. exists i. split; auto. apply in_seq. lia.
  Qed.

  Definition once (t : table) (op : hop) : Prop :=
    match op with
    | HWrite p a _ => p + nrows nmemb a <= t_size t -> forall q, p <= q < p + nrows nmemb a -> t_row t q = None
    | _ => True
    end.
  Definition step_ok (t : table) (f : fs) (b : block) (op : hop) : Prop :=
    exists x f' b' t', hstep e (f, b) op = Ret (x, (f', b')) /\ hspec (e_me e) dt nmemb t op x t' /\ inv t' f' b' /\
      t_sizes t' = sizes_after (t_sizes t) op /\
      (once t op -> sums_ok f base (t_sizes t) (b_fchecksum b) -> sums_ok f' base (t_sizes t') (b_fchecksum b')).

  Lemma inv_dirty t f b : inv t f b -> inv t f (set_bdirty b true).
  Proof.
    intros []. constructor; auto.
    - apply wb_dirty. auto.
    - intros H. discriminate H.
  Qed.

  Lemma hist_seek_far t f b o : inv t f b -> 0 <= o < 2 ^ 63 -> t_size t < o ->
    big_block_seek b (mkPtr 0 0 0) o = Ret (-1, mkPtr 0 0 0).
  Proof.
    intros I Ho Hs. pose proof (wb_layout _ _ _ _ (hv_wb _ _ _ _ _ _ _ _ I)) as HL.
    destruct (seek_spec b (t_sizes t) (mkPtr 0 0 0) o HL ltac:(lia)) as (_ & _ & H). apply H. unfold t_size in Hs. lia.
  Qed.
  Lemma hist_seek t f b o : inv t f b -> 0 <= o < 2 ^ 63 -> o <= t_size t ->
    exists p, big_block_seek b (mkPtr 0 0 0) o = Ret (0, p) /\ ptr_at (t_sizes t) p o.
  Proof.
    intros I Ho Hs. pose proof (wb_layout _ _ _ _ (hv_wb _ _ _ _ _ _ _ _ I)) as HL.
    destruct (seek_spec b (t_sizes t) (mkPtr 0 0 0) o HL ltac:(lia)) as (H & _ & _). apply H. unfold t_size in Hs. lia.
  Qed.

  Lemma source_unique a um vs outs vs' outs' : 0 < nmemb -> 0 < itemsize (e_me e) (a_dtype a) ->
    source (e_me e) dt nmemb a um vs outs -> source (e_me e) dt nmemb a um vs' outs' -> vs = vs' /\ outs = outs'.
  Proof.
    intros Hn Hi (L & H & F) (L' & H' & F').
    assert (vs = vs').
    { apply nth_error_ext_len; [unfold zlen in *; lia|]. intros j v v' Hj Hj'.
      pose proof (H _ _ Hj). pose proof (H' _ _ Hj'). congruence. }
    subst vs'. split; auto. clear - F F'. revert outs' F'. induction F; intros outs' F'; inversion F'; subst; auto.
    f_equal; auto. unfold converts in *. congruence.
  Qed.

  Lemma hist_write t f b o a um : inv t f b -> hop_ok (e_me e) dt nmemb (t_sizes t) (HWrite o a um) ->
    step_ok t f b (HWrite o a um).
  Proof.
    intros I (Ho & Hsz & Ha & Hda & Hconv & (vs & outs & Hsrc) & Hdis).
    pose proof (hv_wb _ _ _ _ _ _ _ _ I) as HW. pose proof (wb_layout _ _ _ _ HW) as HL.
    pose proof (wb_nmemb _ _ _ _ HW) as Hnm. pose proof (wb_wpos _ _ _ _ HW) as Hwp.
    pose proof (hv_base _ _ _ _ _ _ _ _ I) as Eb. pose proof (hv_dt _ _ _ _ _ _ _ _ I) as Ed. pose proof (hv_nm _ _ _ _ _ _ _ _ I) as En.
    assert (Hsz0 : 0 < a_size a) by (rewrite (ao_size _ Ha); apply zprod_pos; apply Ha).
    assert (Hn0 : 0 <= nrows nmemb a < 2 ^ 63) by (unfold nrows; rewrite <- En; split; [apply Z.div_pos; lia|nia]).
    pose proof (hl_small _ _ HL) as Hsm.
    unfold step_ok. cbn [hstep sizes_after].
    destruct (Z_lt_dec (t_size t) o) as [Hfar|Hnear].
    { rewrite (hist_seek_far t f b o I Ho Hfar). cbn [bind]. change (negb (-1 =? 0)) with true. cbv iota.
      eexists _, f, b, t. split; [reflexivity|]. split; [apply sp_write_range; lia|]. auto. }
    destruct (hist_seek t f b o I Ho ltac:(lia)) as (p & -> & Hp). cbn [bind]. change (negb (0 =? 0)) with false. cbv iota.
    destruct (Z_lt_dec (t_size t) (o + nrows nmemb a)) as [Hout|Hin].
    { rewrite (write_range e (t_sizes t) w a f b p um o); auto; try lia; [|rewrite En; exact Hout|rewrite En; unfold nrows in *; lia].
      cbn [bind]. eexists _, f, (set_bdirty b true), t. split; [reflexivity|]. split; [apply sp_write_range; lia|].
      split; [apply inv_dirty; auto|]. auto. }
    pose proof Hsrc as (Lv & Hh & Hf2). rewrite <- Ed in Hconv, Hf2.
    assert (Hn1 : nrows nmemb a = a_size a / b_nmemb b) by (rewrite En; reflexivity).
    assert (Lv1 : zlen vs = nrows nmemb a * b_nmemb b) by (rewrite En; exact Lv).
    assert (Hdis1 : dt_native (e_me e) (a_dtype a) = false -> elems_disjoint (elem_addr a) (itemsize (e_me e) (a_dtype a)) 0 (zlen vs)) by (rewrite Lv; auto).
    assert (Hin1 : o + nrows nmemb a <= zsum (t_sizes t)) by (unfold t_size in *; lia).
    assert (Hfe1 : files_exist f (b_base b) (t_sizes t)) by (rewrite Eb; apply I).
    assert (Hwh1 : whole_rows f (b_base b) (t_sizes t) w) by (rewrite Eb; apply I).
    destruct (write_spec e (t_sizes t) w a f b p um o vs outs (nrows nmemb a) HW Hwc Hw31 Ha Hda Hconv Hn1 Lv1 Hh Hdis1 Hf2 Hp Hin1 Hfe1)
      as (f' & p' & um' & E & Efs & Hp' & Hsa).
    destruct (write_frame e (t_sizes t) w a f b p um o vs outs (nrows nmemb a) HW Hwc Hw31 Ha Hda Hconv Hn1 Lv1 Hh Hdis1 Hf2 Hp Hin1 Hfe1 Hwh1)
      as (f'' & b'' & p'' & um'' & E' & R1 & R2 & Fr & Fe & Wh).
    rewrite E in E'. injection E' as <- <- <- <-. rewrite E. cbn [bind].
    set (rows := rows_of nmemb (nrows nmemb a) outs). rewrite En, Eb in *. fold rows in R1, Efs.
    assert (Lo : length outs = length vs) by (symmetry; eapply Forall2_length; eauto).
    assert (Lr : zlen rows = nrows nmemb a) by (unfold zlen, rows; rewrite rows_of_length; lia).
    assert (Wr : Forall (fun v => length v = Z.to_nat w) rows).
    { pose proof (rows_elems_widths e b (t_sizes t) w (nrows nmemb a) outs HW) as X. rewrite En in X. apply X.
      - lia.
      - unfold zlen in *. lia.
      - apply (converts_Forall (e_me e) (a_dtype a) (b_dtype b) vs outs Hda (wb_dt _ _ _ _ HW)); [|exact Hf2].
        apply Forall_forall. intros v Hv. apply In_nth_error in Hv. destruct Hv as [j Hj].
        apply Hh in Hj. apply load_length in Hj. auto. }
    assert (Hlay' : has_layout (set_checksums (set_bdirty b true) (add_sums (b_fchecksum b) (t_sizes t) o rows)) (t_sizes t)).
    { apply layout_set_cks; [apply layout_set_dirty; auto| |].
      - rewrite WriteFacts.add_sums_length. apply HL.
      - apply add_sums_range. apply HL. }
    set (t' := with_rows t o rows).
    assert (Hrow' : forall r, t_row t' r = if (o <=? r) && (r <? o + zlen rows) then nth_error rows (Z.to_nat (r - o)) else t_row t r) by reflexivity.
    eexists _, f', _, t'. split; [reflexivity|]. split.
    { apply (sp_write _ _ _ t o a um um' vs outs); [lia|exact Hsrc|exact Hsa]. }
    split; [|split; [reflexivity|]].
    - constructor; auto.
      + destruct HW. constructor; auto.
      + apply I.
      + destruct (hv_dir _ _ _ _ _ _ _ _ I) as (D1 & D2 & D3 & D4).
        assert (Fr' : forall q, (forall i, (i < length (t_sizes t))%nat -> q <> data_path base (Z.of_nat i)) -> fs_get f' q = fs_get f q).
        { intros q Hq. apply Fr. intros r i k Hr Hhm. apply Hq. apply home_lt in Hhm. tauto. }
        split; [|split; [|split]].
        * rewrite Fr'; auto. intros i Hi. apply base_not_file. apply print_06X_plain. unfold zlen in *. pose proof (hl_count _ _ HL). unfold zlen in *. lia.
        * rewrite Fr'; auto. intros i Hi X. symmetry in X. revert X. apply data_not_header. lia.
        * rewrite Fr'; auto. intros i Hi X. symmetry in X. revert X. apply data_not_attr2. lia.
        * intros i Hi. destruct (touched_dec (t_sizes t) (data_path base i)) as [(k & Hk & ->)|Hno].
          -- specialize (Fe k Hk). unfold data_file in Fe. intros X. rewrite X in Fe. congruence.
          -- rewrite Fr'; auto.
      + cbn [t' with_rows t_sizes]. intros r v Hv. rewrite Hrow' in Hv.
        destruct ((o <=? r) && (r <? o + zlen rows)) eqn:Er.
        * apply R1 in Hv. rewrite <- Hv. f_equal. lia.
        * destruct (R2 r v ltac:(lia)) as [Q _]. apply Q. exact (hv_row _ _ _ _ _ _ _ _ I _ _ Hv).
      + cbn [t' with_rows t_sizes]. intros r v Hv.
        destruct ((o <=? r) && (r <? o + zlen rows)) eqn:Er.
        * left. rewrite Hrow', Er. destruct (nth_error rows (Z.to_nat (r - o))) as [u|] eqn:Eu.
          -- pose proof (R1 _ _ Eu) as X. replace (o + Z.of_nat (Z.to_nat (r - o))) with r in X by lia. congruence.
          -- apply nth_error_None in Eu. unfold zlen in *. lia.
        * assert (Hsf : forall r2, t_row t r2 <> None -> t_row t' r2 <> None).
          { intros r2 H2. rewrite Hrow'. destruct ((o <=? r2) && (r2 <? o + zlen rows)) eqn:Er2; auto.
            intros X. apply nth_error_None in X. unfold zlen in *. lia. }
          destruct (R2 r v ltac:(lia)) as [Q1 Q2].
          destruct (stored_row f base (t_sizes t) w r) as [u|] eqn:Es.
          -- assert (u = v) by (destruct (R2 r u ltac:(lia)) as [Q3 _]; specialize (Q3 Es); congruence). subst u.
             destruct (hv_zero _ _ _ _ _ _ _ _ I _ _ Es) as [X|(X1 & X2 & r2 & X3 & X4 & X5)].
             ++ left. rewrite Hrow', Er. auto.
             ++ right. rewrite Hrow', Er. split; auto. split; auto. exists r2. split; auto.
          -- apply (Q2 eq_refl) in Hv. destruct Hv as (-> & r2 & Hr2 & Hlt & Hsame).
             destruct (t_row t r) as [u|] eqn:Et.
             { apply (hv_row _ _ _ _ _ _ _ _ I) in Et. congruence. }
             right. rewrite Hrow', Er. split; auto. split; auto. exists r2. split; auto. split.
             ++ destruct Hsame as (i & q & q' & A & B). exists i, q', q. auto.
             ++ rewrite Hrow'. replace ((o <=? r2) && (r2 <? o + zlen rows)) with true by lia.
                intros X. apply nth_error_None in X. unfold zlen in *. lia.
      + intros X. discriminate X.
      + destruct (hv_att _ _ _ _ _ _ _ _ I) as (s & Hs & Hd). exists s. split; auto. rewrite <- Hs.
        apply open_attrs_frame; apply Fr; intros r i k Hr Hhm X; symmetry in X; revert X; [apply data_not_attr1|apply data_not_attr2]; lia.
      + apply I.
      + cbn [t' with_rows t_sizes t_sum set_checksums b_fchecksum]. intros i Hi. apply add_sums_nth.
        * rewrite (hl_cks _ _ HL). lia.
        * apply I. auto.
      + cbn [t' with_rows t_sizes t_sum]. intros i Hi. rewrite bytes_into_out by auto.
        rewrite (hv_unborn _ _ _ _ _ _ _ _ I) by auto. reflexivity.
    - intros Honce Hs. cbn [t' with_rows t_sizes set_checksums b_fchecksum].
      eapply sums_ok_ext; [intros q; symmetry; apply Efs|].
      apply sums_put_rows; [apply HL|apply HL|exact Hwp|rewrite (hl_cks _ _ HL); lia|exact Wr|apply I|apply I| |exact Hs].
      fold rows. intros r Hr u Hu. cbn [once] in Honce. specialize (Honce ltac:(lia) r ltac:(lia)).
        destruct (hv_zero _ _ _ _ _ _ _ _ I _ _ Hu) as [X|(_ & -> & _)]; [congruence|reflexivity].
  Qed.

  (* Either some row is missing, or the rows are made of elements. *)
  Lemma stored_elems t f b o (n : nat) : inv t f b ->
    (exists r, o <= r < o + Z.of_nat n /\ stored_row f base (t_sizes t) w r = None) \/
    exists es, zlen es = Z.of_nat n * nmemb /\ Forall (fun v => length v = Z.to_nat (itemsize (e_me e) dt)) es /\
      forall j v, nth_error (rows_of nmemb (Z.of_nat n) es) j = Some v -> stored_row f base (t_sizes t) w (o + Z.of_nat j) = Some v.
  Proof.
    intros I.
    pose proof (hv_wb _ _ _ _ _ _ _ _ I) as HW. pose proof (wb_layout _ _ _ _ HW) as HL.
    pose proof (wb_nmemb _ _ _ _ HW) as Hnm. pose proof (wb_wpos _ _ _ _ HW) as Hwp.
    pose proof (hv_dt _ _ _ _ _ _ _ _ I) as Ed. pose proof (hv_nm _ _ _ _ _ _ _ _ I) as En.
    induction n as [|n [(r & Hr & Hs)|(es & L & Wd & Hs)]].
        - right. exists []. split; [reflexivity|]. split; [constructor|]. intros [|j] v Hj; discriminate Hj.
        - left. exists r. split; [lia|auto].
        - destruct (stored_row f base (t_sizes t) w (o + Z.of_nat n)) as [u|] eqn:Eu.
          2:{ left. exists (o + Z.of_nat n). split; [lia|auto]. }
          right. set (g := group (Z.to_nat (itemsize (e_me e) dt)) (Z.to_nat nmemb) u).
          assert (Hwu : length u = Z.to_nat w) by (apply (stored_row_width f base (t_sizes t) w (o + Z.of_nat n)); [exact Hwp|apply HL|exact Eu]).
          assert (His : 0 < itemsize (e_me e) dt) by (rewrite <- Ed; apply HW).
          assert (Hwu' : length u = (Z.to_nat nmemb * Z.to_nat (itemsize (e_me e) dt))%nat).
          { rewrite Hwu, (wb_w _ _ _ _ HW), Ed, En. nia. }
          assert (Lg : zlen g = nmemb) by (unfold zlen, g; rewrite WriteFacts.group_length; lia).
          exists (es ++ g). rewrite zlen_app, L, Lg. split; [lia|]. split.
          { apply Forall_app. split; auto. apply group_lengths. auto. }
          intros j v Hj. replace (Z.of_nat (S n)) with (Z.of_nat n + 1) in Hj by lia.
          rewrite rows_of_app in Hj by lia. destruct (Nat.lt_ge_cases j n) as [Hlt|Hge].
          + rewrite nth_error_app1 in Hj by (rewrite rows_of_length; lia). auto.
          + rewrite nth_error_app2 in Hj by (rewrite rows_of_length; lia). rewrite rows_of_length in Hj.
            replace (j - Z.to_nat (Z.of_nat n))%nat with (j - n)%nat in Hj by lia.
            assert (Eg : rows_of nmemb 1 g = [u]).
            { unfold rows_of. change (Z.to_nat 1) with 1%nat. cbn [group map].
              rewrite firstn_all2 by (unfold zlen in Lg; lia). unfold g. rewrite group_concat by auto. reflexivity. }
            rewrite Eg in Hj. destruct (j - n)%nat as [|k] eqn:Ej; [|destruct k; discriminate Hj].
            injection Hj as <-. replace (Z.of_nat j) with (Z.of_nat n) by lia. auto.
  Qed.

  Lemma hist_read t f b o a um : inv t f b -> hop_ok (e_me e) dt nmemb (t_sizes t) (HRead o a um) ->
    step_ok t f b (HRead o a um).
  Proof.
    intros I (Ho & Hsz & Ha & Hda & Hconv & Htot & Hm & Hdis).
    pose proof (hv_wb _ _ _ _ _ _ _ _ I) as HW. pose proof (wb_layout _ _ _ _ HW) as HL.
    pose proof (wb_nmemb _ _ _ _ HW) as Hnm. pose proof (wb_wpos _ _ _ _ HW) as Hwp.
    pose proof (hv_base _ _ _ _ _ _ _ _ I) as Eb. pose proof (hv_dt _ _ _ _ _ _ _ _ I) as Ed. pose proof (hv_nm _ _ _ _ _ _ _ _ I) as En.
    assert (Hsz0 : 0 < a_size a) by (rewrite (ao_size _ Ha); apply zprod_pos; apply Ha).
    assert (Hn0 : 0 <= nrows nmemb a < 2 ^ 63) by (unfold nrows; rewrite <- En; split; [apply Z.div_pos; lia|nia]).
    pose proof (hl_small _ _ HL) as Hsm.
    unfold step_ok. cbn [hstep sizes_after].
    destruct (Z_lt_dec (t_size t) o) as [Hfar|Hnear].
    { rewrite (hist_seek_far t f b o I Ho Hfar). cbn [bind]. change (negb (-1 =? 0)) with true. cbv iota.
      eexists _, f, b, t. split; [reflexivity|]. split; [|auto]. apply sp_read; auto; lia. }
    destruct (hist_seek t f b o I Ho ltac:(lia)) as (p & -> & Hp). cbn [bind]. change (negb (0 =? 0)) with false. cbv iota.
    destruct (Z_lt_dec (t_size t) (o + nrows nmemb a)) as [Hout|Hin].
    { rewrite (read_range e (t_sizes t) w a f b p um o); auto; [|rewrite En; exact Hout|rewrite En; unfold nrows in *; lia].
      cbn [bind]. eexists _, f, b, t. split; [reflexivity|]. split; [|auto]. apply sp_read; auto; lia. }
    assert (Hcase : (exists r, o <= r < o + nrows nmemb a /\ stored_row f base (t_sizes t) w r = None) \/
      exists es, zlen es = nrows nmemb a * nmemb /\ Forall (fun v => length v = Z.to_nat (itemsize (e_me e) dt)) es /\
        forall j v, nth_error (rows_of nmemb (nrows nmemb a) es) j = Some v -> stored_row f base (t_sizes t) w (o + Z.of_nat j) = Some v).
    { pose proof (stored_elems t f b o (Z.to_nat (nrows nmemb a)) I) as Hall.
      replace (Z.of_nat (Z.to_nat (nrows nmemb a))) with (nrows nmemb a) in Hall by lia. exact Hall. }
    rewrite <- Ed in Hconv, Htot. rewrite <- En in Hm, Hdis, Hcase. rewrite <- Ed in Hcase. rewrite <- Eb in Hcase.
    assert (Hnn : nrows nmemb a = a_size a / b_nmemb b) by (rewrite En; reflexivity).
    destruct Hcase as [Hmiss|(es & Les & Wes & Hst)].
    - destruct (read_missing e (t_sizes t) w a f b p um o (nrows (b_nmemb b) a)) as (p' & um' & E & F); auto.
      { rewrite En. unfold t_size in *. lia. }
      rewrite E. cbn [bind]. eexists _, f, b, t. split; [reflexivity|]. split; [|auto].
      rewrite Eb, En in Hmiss. destruct Hmiss as (r & Hr & Hmiss).
      apply sp_read; auto; try lia; [|rewrite <- En; exact F]. intros es outs _ Les Wes Hsh _. exfalso.
      destruct (nth_error (rows_of nmemb (nrows nmemb a) es) (Z.to_nat (r - o))) as [v|] eqn:Ev.
      2:{ apply nth_error_None in Ev. rewrite rows_of_length in Ev. lia. }
      apply Hsh in Ev. replace (o + Z.of_nat (Z.to_nat (r - o))) with r in Ev by lia.
      assert (Ew : itemsize (e_me e) dt * nmemb = w) by (rewrite (wb_w _ _ _ _ HW), Ed, En; auto).
      rewrite Ew in Ev. apply (inv_shows t f b) in Ev; auto. congruence.
    - destruct (Forall_choice _ _ es Htot Wes) as (outs & Hf2).
      destruct (read_spec e (t_sizes t) w a f b p um o es outs (nrows (b_nmemb b) a)) as (p' & um' & E & P & Wt); auto.
      { rewrite Les. auto. } { rewrite Les. auto. } { rewrite En. unfold t_size in *. lia. }
      rewrite E. cbn [bind]. eexists _, f, b, t. split; [reflexivity|]. split; [|auto].
      rewrite Eb, En, Ed in *.
      assert (Ew : itemsize (e_me e) dt * nmemb = w) by (rewrite (wb_w _ _ _ _ HW), Ed, En; auto).
      apply sp_read; auto; try lia.
      + intros es' outs' _ Les' Wes' Hsh Hf2'. split; auto.
        assert (Hee : rows_of nmemb (nrows nmemb a) es = rows_of nmemb (nrows nmemb a) es').
        { apply nth_error_ext_len; [rewrite !rows_of_length; auto|]. intros j v v' Hv Hv'. apply Hst in Hv. apply Hsh in Hv'.
          rewrite Ew in Hv'. apply (inv_shows t f b) in Hv'; auto. congruence. }
        assert (es = es').
        { apply (f_equal (@concat byte)) in Hee. rewrite !rows_of_concat in Hee by lia.
          clear - Hee Wes Wes' Les Les'. assert (Hl : length es = length es') by (unfold zlen in *; lia). clear Les Les'.
          revert es' Hee Wes' Hl. induction Wes as [|v es Hv Hes IH]; intros [|v' es'] Hee Wes' Hl; try discriminate Hl; auto.
          inversion Wes'; subst. cbn [concat] in Hee. apply app_inj_len in Hee; [|congruence]. destruct Hee as [-> Hee].
          f_equal. apply IH; auto. }
        subst es'. assert (outs = outs').
        { clear - Hf2 Hf2'. revert outs' Hf2'. induction Hf2; intros outs' F'; inversion F'; subst; auto.
          f_equal; auto. unfold converts in *. congruence. }
        subst outs'. auto.
      + intros r _ Hr Habs. exfalso. apply (inv_absent t f b r I) in Habs.
        destruct (nth_error (rows_of nmemb (nrows nmemb a) es) (Z.to_nat (r - o))) as [v|] eqn:Ev.
        2:{ apply nth_error_None in Ev. rewrite rows_of_length in Ev. lia. }
        apply Hst in Ev. replace (o + Z.of_nat (Z.to_nat (r - o))) with r in Ev by lia. congruence.
      + right. split; auto. exists outs. split; [|exact Wt]. apply Forall2_length in Hf2. unfold zlen in *. lia.
      + intros x Hx. apply (proj2 Wt). replace (zlen outs) with (nrows nmemb a * nmemb); auto.
        apply Forall2_length in Hf2. unfold zlen in *. lia.
  Qed.

  Lemma same_file_app (sizes gs : list Z) r r2 : Forall (fun s => 0 <= s) sizes -> same_file sizes r r2 -> same_file (sizes ++ gs) r r2.
  Proof.
    intros Hn (i & q & q' & A & B). exists i, q, q'. rewrite !home_app_l; auto; eapply home_range; eauto.
  Qed.

  Lemma hist_grow t f b gs : inv t f b -> hop_ok (e_me e) dt nmemb (t_sizes t) (HGrow gs) ->
    step_ok t f b (HGrow gs).
  Proof.
    intros I (Hl & HN).
    pose proof (hv_wb _ _ _ _ _ _ _ _ I) as HW. pose proof (wb_layout _ _ _ _ HW) as HL.
    pose proof (wb_wpos _ _ _ _ HW) as Hwp. pose proof (inv_nonneg _ _ _ I) as Hnn.
    pose proof (hv_base _ _ _ _ _ _ _ _ I) as Eb. pose proof (hv_dt _ _ _ _ _ _ _ _ I) as Ed. pose proof (hv_nm _ _ _ _ _ _ _ _ I) as En.
    assert (Hd0 : block_dir f (b_base b)) by (rewrite Eb; apply I).
    destruct (grow_spec f b (t_sizes t) gs HL Hd0 Hl) as (f' & b' & E & L' & E1 & E2 & E3 & E4 & E5 & E6 & Hd' & G & O).
    pose proof Hl as (L1 & L2 & L3). rewrite zlen_app in L3. rewrite Eb in *.
    destruct (grow_rows f f' base (t_sizes t) gs w Hwp Hnn L3 G O) as [R1 R2].
    unfold step_ok. cbn [hstep sizes_after]. rewrite E. cbn [bind].
    set (t' := mkTab (t_sizes t ++ gs) (t_row t) (t_sum t)).
    assert (Hold : forall i, (i < length (t_sizes t))%nat -> data_file f' base i = data_file f base i).
    { intros i Hi. unfold data_file. rewrite O; auto. intros (j & Hj & Ej). apply data_path_inj in Ej; unfold zlen in *; lia. }
    eexists _, f', b', t'. split; [reflexivity|]. split; [apply sp_grow|]. split; [|split; [reflexivity|]].
    - constructor; cbn [t' t_sizes t_row t_sum]; auto; try congruence.
      + destruct HW. constructor; rewrite ?E1, ?E2; auto.
      + intros i Hi. rewrite app_length in Hi. destruct (Nat.lt_ge_cases i (length (t_sizes t))) as [Hlt|Hge].
        * rewrite Hold by auto. apply I. auto.
        * rewrite G by lia. discriminate.
      + intros i c Hi Hc. rewrite app_length in Hi. destruct (Nat.lt_ge_cases i (length (t_sizes t))) as [Hlt|Hge].
        * rewrite Hold in Hc by auto. rewrite app_nth1 by auto. eapply (hv_whole _ _ _ _ _ _ _ _ I); eauto.
        * rewrite G in Hc by lia. injection Hc as <-. exists 0. split; [|reflexivity]. split; [lia|].
          rewrite Forall_forall in L1. apply L1. apply nth_In. rewrite app_length. lia.
      + intros r v Hr. pose proof (hv_row _ _ _ _ _ _ _ _ I _ _ Hr) as Hs.
        destruct (stored_home _ _ _ _ _ _ Hs) as (i & q & Hh). rewrite R1; auto. eapply home_range; eauto.
      + intros r v Hr. destruct (Z_lt_dec r (zsum (t_sizes t))) as [Hlt|Hge]; [|rewrite R2 in Hr by lia; discriminate].
        destruct (Z_lt_dec r 0) as [H0|H0].
        { exfalso. unfold stored_row in Hr. rewrite home_none in Hr by (auto; lia). discriminate. }
        rewrite R1 in Hr by lia. destruct (hv_zero _ _ _ _ _ _ _ _ I _ _ Hr) as [X|(X1 & X2 & r2 & X3 & X4 & X5)].
        * left. auto.
        * right. split; auto. split; auto. exists r2. split; auto. split; auto. apply same_file_app; auto.
      + destruct (hv_att _ _ _ _ _ _ _ _ I) as (s & Hs & Hd). exists s. split; auto. rewrite <- Hs. pose proof (zlen_nonneg (t_sizes t)).
        apply open_attrs_frame; apply O; intros (j & Hj & X); symmetry in X; revert X; [apply data_not_attr1|apply data_not_attr2]; lia.
      + rewrite E4. apply I.
      + intros i Hi. rewrite app_length in Hi. rewrite E6.
        destruct (Nat.lt_ge_cases i (length (t_sizes t))) as [Hlt|Hge].
        * rewrite app_nth1 by (rewrite firstn_length, (hl_cks _ _ HL); lia).
          assert (Hn : forall (l : list Z) n k, (k < n)%nat -> nth k (firstn n l) 0 = nth k l 0).
          { clear. induction l as [|x l IH]; intros [|n] [|k] H; simpl; auto; try lia. apply IH. lia. }
          rewrite Hn by auto. apply I. auto.
        * rewrite app_nth2 by (rewrite firstn_length, (hl_cks _ _ HL); lia). rewrite nth_repeat0_z.
          rewrite (hv_unborn _ _ _ _ _ _ _ _ I) by auto. reflexivity.
      + intros i Hi. rewrite app_length in Hi. apply I. lia.
    - intros _ Hs i c Hi Hc. cbn [t' t_sizes] in *. rewrite app_length in Hi. rewrite E6.
      destruct (Nat.lt_ge_cases i (length (t_sizes t))) as [Hlt|Hge].
      + rewrite app_nth1 by (rewrite firstn_length, (hl_cks _ _ HL); lia).
        assert (Hn : forall (l : list Z) n k, (k < n)%nat -> nth k (firstn n l) 0 = nth k l 0).
        { clear. induction l as [|x l IH]; intros [|n] [|k] H; simpl; auto; try lia. apply IH. lia. }
        rewrite Hn by auto. apply Hs; auto. rewrite <- Hold; auto.
      + rewrite app_nth2 by (rewrite firstn_length, (hl_cks _ _ HL); lia). rewrite nth_repeat0_z.
        rewrite G in Hc by lia. injection Hc as <-. reflexivity.
  Qed.

  Lemma hist_step t f b op : inv t f b -> hop_ok (e_me e) dt nmemb (t_sizes t) op -> step_ok t f b op.
  Proof.
    intros I H. destruct op as [o a um|o a um|gs| |].
    - apply hist_write; auto.
    - apply hist_read; auto.
    - apply hist_grow; auto.
    - destruct (hist_flush t f b I) as (f' & E & I' & Hs & _). unfold step_ok. cbn [hstep sizes_after]. rewrite E. cbn [bind].
      eexists _, f', _, t. split; [reflexivity|]. split; [constructor|]. split; [exact I'|]. auto.
    - destruct (hist_reopen t f b I) as (f' & b' & E & I' & Hs). unfold step_ok. rewrite E.
      eexists _, f', b', t. split; [reflexivity|]. split; [constructor|]. split; [exact I'|]. auto.
  Qed.

  Lemma hist_run : forall os t f b, inv t f b -> history_ok (e_me e) dt nmemb (t_sizes t) os ->
    exists xs f' b' t', hrun e (f, b) os = Ret (xs, (f', b')) /\ hspecs (e_me e) dt nmemb t os xs t' /\ inv t' f' b' /\
      (written_once (e_me e) dt nmemb t os -> sums_ok f base (t_sizes t) (b_fchecksum b) ->
         sums_ok f' base (t_sizes t') (b_fchecksum b')).
  Proof.
    induction os as [|o os IH]; intros t f b I H.
    - exists [], f, b, t. split; [reflexivity|]. split; [constructor|]. auto.
    - destruct H as [Ho Hos]. destruct (hist_step t f b o I Ho) as (x & f1 & b1 & t1 & E1 & S1 & I1 & Z1 & W1).
      rewrite <- Z1 in Hos. destruct (IH t1 f1 b1 I1 Hos) as (xs & f2 & b2 & t2 & E2 & S2 & I2 & W2).
      cbn [hrun]. rewrite E1. cbn [bind]. rewrite E2. cbn [bind]. exists (x :: xs), f2, b2, t2.
      split; [reflexivity|]. split; [econstructor; eauto|]. split; [auto|].
      intros Hw Hs. destruct Hw as [Hw1 Hw2]. apply W2; [eapply Hw2; eauto|]. apply W1; auto.
  Qed.
End Step.

(* ------------------------------------------------------------ creation *)
Lemma hist_create e f base d nmemb sizes : block_name base -> block_dir f base -> layout_ok sizes -> zlen sizes <= 2 ^ 24 ->
  fs_get f (attr1_path base) = None ->
  0 < nmemb -> dt_ok (e_me e) (dtype_normalize (e_me e) d) ->
  exists f' b, big_block_create e f base (Some d) nmemb (zlen sizes) sizes = Ret (f', Some b) /\
    hinv e base (dtype_normalize (e_me e) d) nmemb (itemsize (e_me e) (dtype_normalize (e_me e) d) * nmemb) (new_table sizes) f' b /\
    sums_ok f' base sizes (b_fchecksum b).
Proof.
  intros Hn Hd Hl HN Ha Hnm Hdt. destruct (create_spec e f base d nmemb sizes Hn Hd Hl)
    as (f' & b & E & Lay & Edt & Enm & Eb & Hok & Hdi & Hadi & Hck & Hd' & Hh & Ha2 & Hdata & O).
  assert (Ha' : fs_get f' (attr1_path base) = None).
  { rewrite O; auto. intros [X|[X|(j & Hj & X)]]; [symmetry in X; revert X; apply header_not_attr1|revert X; apply attr1_not_attr2|symmetry in X; revert X; apply data_not_attr1; lia]. }
  destruct (open_attrs_none e f' base Ha') as (s & Es & Os & Ds); [auto|].
  set (w := itemsize (e_me e) (dtype_normalize (e_me e) d) * nmemb).
  assert (Hwp : 0 < w) by (destruct Hdt; unfold w; nia).
  exists f', b. split; [exact E|]. split.
  - constructor; cbn [new_table t_sizes t_row t_sum]; auto.
    + constructor; rewrite ?Edt, ?Enm; auto.
    + intros i Hi. rewrite Hdata by auto. discriminate.
    + intros i c Hi Hc. rewrite Hdata in Hc by auto. injection Hc as <-. exists 0. split; [|reflexivity]. split; [lia|].
      destruct Hl as (L1 & _). rewrite Forall_forall in L1. apply L1. apply nth_In. auto.
    + intros r v Hr. discriminate Hr.
    + intros r v Hr. rewrite fresh_rows in Hr by auto. discriminate Hr.
    + exists s. auto.
    + intros i Hi. rewrite Hck. rewrite nth_repeat0_z. reflexivity.
  - intros i c Hi Hc. rewrite Hdata in Hc by auto. injection Hc as <-. rewrite Hck, nth_repeat0_z. reflexivity.
Qed.

Lemma history e f base d nmemb sizes os : let dt := dtype_normalize (e_me e) d in
  new_block e f base d nmemb sizes -> history_ok (e_me e) dt nmemb sizes os ->
  exists xs f' b' t, create_and_run e f base d nmemb sizes os = Ret (Some (xs, (f', b'))) /\
    hspecs (e_me e) dt nmemb (new_table sizes) os xs t /\
    hinv e base dt nmemb (itemsize (e_me e) dt * nmemb) t f' b' /\
    (written_once (e_me e) dt nmemb (new_table sizes) os -> sums_ok f' base (t_sizes t) (b_fchecksum b')).
Proof.
  intros dt [] Hos. destruct (hist_create e f base d nmemb sizes) as (f1 & b1 & E & I & Hs); auto; [lia|].
  destruct (hist_run e base dt nmemb (itemsize (e_me e) dt * nmemb) nb_name nb_type (proj2 nb_nmemb) nb_chunk nb_width os (new_table sizes) f1 b1 I Hos)
    as (xs & f2 & b2 & t & E2 & S & I2 & W).
  exists xs, f2, b2, t. unfold create_and_run. rewrite E. cbn [bind]. rewrite E2. cbn [bind].
  split; [reflexivity|]. split; [exact S|]. split; [exact I2|]. intros Hw. apply W; auto.
Qed.

Lemma hinv_size e base dt nmemb w t f b : hinv e base dt nmemb w t f b ->
  b_size b = t_size t /\ b_dtype b = dt /\ b_nmemb b = nmemb /\ has_layout b (t_sizes t).
Proof.
  intros I. pose proof (wb_layout _ _ _ _ (hv_wb _ _ _ _ _ _ _ _ I)) as HL.
  split; [apply HL|]. split; [apply I|]. split; [apply I|exact HL].
Qed.

(* C09 *)
Lemma history_refines e f base d nmemb sizes os : let dt := dtype_normalize (e_me e) d in
  new_block e f base d nmemb sizes -> history_ok (e_me e) dt nmemb sizes os ->
  exists xs f' b' t, create_and_run e f base d nmemb sizes os = Ret (Some (xs, (f', b'))) /\
    hspecs (e_me e) dt nmemb (new_table sizes) os xs t /\
    b_size b' = t_size t /\ b_dtype b' = dt /\ b_nmemb b' = nmemb /\ has_layout b' (t_sizes t).
Proof.
  intros dt Hn Hos. destruct (history e f base d nmemb sizes os Hn Hos) as (xs & f' & b' & t & E & S & I & _).
  exists xs, f', b', t. split; [exact E|]. split; [exact S|]. eapply hinv_size; eauto.
Qed.

(* C08 *)
Lemma history_absent e f base d nmemb sizes os o a um : let dt := dtype_normalize (e_me e) d in
  new_block e f base d nmemb sizes -> history_ok (e_me e) dt nmemb sizes os ->
  exists xs f' b' t, create_and_run e f base d nmemb sizes os = Ret (Some (xs, (f', b'))) /\
    hspecs (e_me e) dt nmemb (new_table sizes) os xs t /\
    (hop_ok (e_me e) dt nmemb (t_sizes t) (HRead o a um) ->
     (exists r, o <= r < o + nrows nmemb a /\ absent t r) ->
     exists um', hstep e (f', b') (HRead o a um) = Ret ((-1, Some um'), (f', b'))).
Proof.
  intros dt Hn Hos. destruct (history e f base d nmemb sizes os Hn Hos) as (xs & f' & b' & t & E & S & I & _).
  exists xs, f', b', t. split; [exact E|]. split; [exact S|]. intros Hok (r & Hr & Habs). destruct Hn.
  destruct (hist_step e base dt nmemb _ nb_name nb_type (proj2 nb_nmemb) nb_chunk nb_width t f' b' _ I Hok)
    as (x & f2 & b2 & t2 & E2 & S2 & _).
  assert (Hst : (f2, b2) = (f', b')).
  { cbn [hstep] in E2. destruct (big_block_seek b' _ o) as [[rc p]|u|]; cbn [bind] in E2; try discriminate E2.
    destruct (negb (rc =? 0)); [injection E2 as _ <- <-; auto|].
    destruct (big_block_read e f' b' p a um) as [[[rc2 p2] um2]|u|]; cbn [bind] in E2; try discriminate E2. injection E2 as _ <- <-. auto. }
  rewrite Hst in E2. inversion S2 as [| |o0 a0 um0 rc um' Hfar Hsh Hab| | |]; subst.
  exists um'. rewrite E2. replace rc with (-1); [reflexivity|]. symmetry.
  destruct (Z_lt_dec (t_size t2) (o + nrows nmemb a)) as [Hf|Hf]; [apply Hfar; auto|]. apply (Hab r); auto. lia.
Qed.

(* C14: what the recorded checksum is after any history *)
Lemma history_sums e f base d nmemb sizes os : let dt := dtype_normalize (e_me e) d in
  new_block e f base d nmemb sizes -> history_ok (e_me e) dt nmemb sizes os ->
  exists xs f' b' t, create_and_run e f base d nmemb sizes os = Ret (Some (xs, (f', b'))) /\
    hspecs (e_me e) dt nmemb (new_table sizes) os xs t /\
    forall i, (i < length (t_sizes t))%nat -> nth i (b_fchecksum b') 0 = t_sum t i mod 2 ^ 32.
Proof.
  intros dt Hn Hos. destruct (history e f base d nmemb sizes os Hn Hos) as (xs & f' & b' & t & E & S & I & _).
  exists xs, f', b', t. split; [exact E|]. split; [exact S|]. apply I.
Qed.

(* C13 *)
Lemma zsum_mod l : forall s, fold_left (fun s c => u32 (s + c)) l (s mod 2 ^ 32) = (s + zsum l) mod 2 ^ 32.
Proof.
  induction l as [|c l IH]; intros s; cbn [fold_left zsum fold_right]; [rewrite Z.add_0_r; auto|].
  unfold u32 at 2. change (2 ^ 32) with 4294967296 in *. rewrite Z.add_mod_idemp_l by lia. rewrite IH. unfold zsum. f_equal. lia.
Qed.
Lemma byte_sum_app a b : byte_sum (a ++ b) = byte_sum a + byte_sum b.
Proof. unfold byte_sum. rewrite map_app, zsum_app. reflexivity. Qed.

Lemma sums_all f base cks : forall (sizes pre : list Z),
  (forall i c, (length pre <= i < length pre + length sizes)%nat -> data_file f base i = Some c -> nth i cks 0 = byte_sum c mod 2 ^ 32) ->
  (forall i, (length pre <= i < length pre + length sizes)%nat -> data_file f base i <> None) ->
  zsum (map (fun i => nth i cks 0) (seq (length pre) (length sizes))) mod 2 ^ 32 =
  byte_sum (flat_map (fun i => match data_file f base i with Some c => c | None => [] end) (seq (length pre) (length sizes))) mod 2 ^ 32.
Proof.
  induction sizes as [|s sizes IH]; intros pre Hs Hf; cbn [length seq map flat_map]; [reflexivity|].
  cbn [zsum fold_right]. fold (zsum (map (fun i => nth i cks 0) (seq (S (length pre)) (length sizes)))).
  rewrite byte_sum_app. specialize (IH (pre ++ [s])). rewrite app_length in IH. cbn [length] in IH.
  replace (length pre + 1)%nat with (S (length pre)) in IH by lia.
  rewrite <- Z.add_mod_idemp_r by lia. rewrite IH.
  - rewrite Z.add_mod_idemp_r by lia.
    destruct (data_file f base (length pre)) as [c|] eqn:Ec.
    + rewrite (Hs (length pre) c) by (simpl; auto; lia). rewrite Z.add_mod_idemp_l by lia. reflexivity.
    + exfalso. apply (Hf (length pre)); auto. simpl. lia.
  - intros i c Hi. apply Hs. simpl. lia.
  - intros i Hi. apply Hf. simpl. lia.
Qed.

Lemma firstn_map_nth (l : list Z) n : (n <= length l)%nat -> firstn n l = map (fun i => nth i l 0) (seq 0 n).
Proof.
  intros H. apply nth_ext with (d := 0) (d' := nth O l 0); [rewrite firstn_length, map_length, seq_length; lia|].
  intros i Hi. rewrite firstn_length in Hi.
  rewrite (map_nth (fun i => nth i l 0)). rewrite seq_nth by lia.
  rewrite <- (firstn_skipn n l) at 2. rewrite app_nth1 by (rewrite firstn_length; lia). reflexivity.
Qed.

Lemma history_checksum e f base d nmemb sizes os : let dt := dtype_normalize (e_me e) d in
  new_block e f base d nmemb sizes -> history_ok (e_me e) dt nmemb sizes os ->
  written_once (e_me e) dt nmemb (new_table sizes) os ->
  exists xs f' b' t, create_and_run e f base d nmemb sizes os = Ret (Some (xs, (f', b'))) /\
    hspecs (e_me e) dt nmemb (new_table sizes) os xs t /\
    files_exist f' base (t_sizes t) /\ has_layout b' (t_sizes t) /\
    sums_ok f' base (t_sizes t) (b_fchecksum b') /\
    ls_checksum b' = sysv_checksum (all_data f' base (t_sizes t)).
Proof.
  intros dt Hn Hos Hw. destruct (history e f base d nmemb sizes os Hn Hos) as (xs & f' & b' & t & E & S & I & W).
  specialize (W Hw). exists xs, f', b', t. split; [exact E|]. split; [exact S|].
  assert (HE : files_exist f' base (t_sizes t)) by apply I.
  destruct (hinv_size _ _ _ _ _ _ _ _ I) as (_ & _ & _ & HL).
  split; [exact HE|]. split; [exact HL|]. split; [exact W|].
  unfold ls_checksum, sysv_checksum, all_data.
  rewrite (hl_Nfile _ _ HL). unfold zlen. rewrite Nat2Z.id.
  rewrite firstn_map_nth by (rewrite (hl_cks _ _ HL); lia).
  pose proof (zsum_mod (map (fun i => nth i (b_fchecksum b') 0) (seq 0 (length (t_sizes t)))) 0) as HZ.
  change (0 mod 2 ^ 32) with 0 in HZ. rewrite HZ. clear HZ.
  pose proof (sums_all f' base (b_fchecksum b') (t_sizes t) []) as HS. cbn [length] in HS. rewrite Z.add_0_l, HS.
  - set (s := byte_sum _). unfold reduce_sum. change (2 ^ 32) with 4294967296. change (2 ^ 16) with 65536.
    rewrite Z.mod_mod by lia.
    replace (s mod 4294967296 mod 65536) with (s mod 65536); [reflexivity|].
    apply Znumtheory.Zmod_div_mod; [lia|lia|]. exists 65536. reflexivity.
  - intros i c Hi. apply W. lia.
  - intros i Hi. apply HE. lia.
Qed.

(* C10 *)
Lemma specs_agree me dt nmemb os1 os2 (Hn : 0 < nmemb) : Forall2 same_calls os1 os2 ->
  forall t1 t2 xs1 xs2 t1' t2', history_ok me dt nmemb (t_sizes t1) os1 ->
  (forall r, t_row t1 r = t_row t2 r) -> t_size t1 = t_size t2 ->
  hspecs me dt nmemb t1 os1 xs1 t1' -> hspecs me dt nmemb t2 os2 xs2 t2' ->
  (forall r, t_row t1' r = t_row t2' r) /\ t_size t1' = t_size t2'.
Proof.
  intros HF. induction HF as [|o1 o2 os1 os2 Ho HF IH]; intros t1 t2 xs1 xs2 t1' t2' Hok Hr Hs S1 S2.
  { inversion S1; inversion S2; subst. auto. }
  inversion S1 as [|? ? x1 m1 ? ys1 ? A1 B1]; inversion S2 as [|? ? x2 m2 ? ys2 ? A2 B2]; subst.
  destruct Hok as [Ok1 Ok2].
  assert (Hm : (forall r, t_row m1 r = t_row m2 r) /\ t_size m1 = t_size m2 /\ t_sizes m1 = sizes_after (t_sizes t1) o1).
  { destruct o1 as [o a um|o a um|gs| |], o2 as [o' a' um'|o' a' um'|gs'| |]; try discriminate Ho.
    - injection Ho as <- <- <-.
      inversion A1 as [? ? ? v1 vs outs Hle Hsrc| | | | |]; inversion A2 as [? ? ? v2 vs' outs' Hle' Hsrc'| | | | |]; subst; try lia; [|auto].
      destruct (source_unique (mkEnv me 1 (fun _ => x00) 0 (fun _ _ => 0) (fun _ => [])) dt nmemb a um vs outs vs' outs' Hn) as [_ <-]; auto.
      { cbn. apply Ok1. }
      split; [|split; [exact Hs|reflexivity]]. intros r. cbn [with_rows t_row]. rewrite Hr. reflexivity.
    - injection Ho as <- <- <-. inversion A1; inversion A2; subst. auto.
    - inversion A1; inversion A2; subst. cbn in Ho. split; [exact Hr|].
      split; [|reflexivity]. unfold t_size in *. cbn [t_sizes]. rewrite !zsum_app. lia.
    - inversion A1; inversion A2; subst. auto.
    - inversion A1; inversion A2; subst. auto. }
  destruct Hm as (M1 & M2 & M3). rewrite <- M3 in Ok2. eapply IH; eauto.
Qed.

Lemma same_calls_read me dt nmemb s1 s2 o a um : hop_ok me dt nmemb s1 (HRead o a um) -> hop_ok me dt nmemb s2 (HRead o a um).
Proof. auto. Qed.

Lemma hread_state e f b o a um x f2 b2 : hstep e (f, b) (HRead o a um) = Ret (x, (f2, b2)) -> f2 = f /\ b2 = b.
Proof.
  intros E2. cbn [hstep] in E2. destruct (big_block_seek b _ o) as [[rc p]|u|]; cbn [bind] in E2; try discriminate E2.
  destruct (negb (rc =? 0)); [injection E2 as _ <- <-; auto|].
  destruct (big_block_read e f b p a um) as [[[rc2 p2] um2]|u|]; cbn [bind] in E2; try discriminate E2. injection E2 as _ <- <-. auto.
Qed.

Lemma history_partition e1 e2 f1 f2 base1 base2 d nmemb sizes1 sizes2 os1 os2 o a um : let dt := dtype_normalize (e_me e1) d in
  e_me e1 = e_me e2 ->
  new_block e1 f1 base1 d nmemb sizes1 -> new_block e2 f2 base2 d nmemb sizes2 ->
  history_ok (e_me e1) dt nmemb sizes1 os1 -> history_ok (e_me e1) dt nmemb sizes2 os2 ->
  Forall2 same_calls os1 os2 -> zsum sizes1 = zsum sizes2 ->
  exists xs1 g1 b1 t1 xs2 g2 b2,
    create_and_run e1 f1 base1 d nmemb sizes1 os1 = Ret (Some (xs1, (g1, b1))) /\
    create_and_run e2 f2 base2 d nmemb sizes2 os2 = Ret (Some (xs2, (g2, b2))) /\
    hspecs (e_me e1) dt nmemb (new_table sizes1) os1 xs1 t1 /\
    b_size b1 = b_size b2 /\
    (hop_ok (e_me e1) dt nmemb (t_sizes t1) (HRead o a um) ->
     o + nrows nmemb a <= t_size t1 -> (forall r, o <= r < o + nrows nmemb a -> t_row t1 r <> None) ->
     exists um1 um2,
       hstep e1 (g1, b1) (HRead o a um) = Ret ((0, Some um1), (g1, b1)) /\
       hstep e2 (g2, b2) (HRead o a um) = Ret ((0, Some um2), (g2, b2)) /\
       forall x, um1 x = um2 x).
Proof.
  intros dt Eme N1 N2 K1 K2 HF Hz.
  destruct (history e1 f1 base1 d nmemb sizes1 os1 N1 K1) as (xs1 & g1 & b1 & t1 & E1 & S1 & I1 & _).
  destruct (history e2 f2 base2 d nmemb sizes2 os2 N2) as (xs2 & g2 & b2 & t2 & E2 & S2 & I2 & _).
  { rewrite <- Eme. exact K2. }
  exists xs1, g1, b1, t1, xs2, g2, b2. split; [exact E1|]. split; [exact E2|]. split; [exact S1|].
  rewrite <- Eme in S2.
  destruct (specs_agree (e_me e1) dt nmemb os1 os2 (proj1 (nb_nmemb _ _ _ _ _ _ N1)) HF (new_table sizes1) (new_table sizes2) xs1 xs2 t1 t2 K1)
    as [Hr Hs]; auto.
  split. { rewrite (proj1 (hinv_size _ _ _ _ _ _ _ _ I1)), (proj1 (hinv_size _ _ _ _ _ _ _ _ I2)). exact Hs. }
  intros Hok Hle Hw.
  assert (Hok2 : hop_ok (e_me e2) (dtype_normalize (e_me e2) d) nmemb (t_sizes t2) (HRead o a um)) by (rewrite <- Eme; exact Hok).
  assert (Hpos : 0 < nmemb) by apply (nb_nmemb _ _ _ _ _ _ N1).
  assert (Hnr : 0 <= nrows nmemb a).
  { unfold nrows. destruct Hok as (_ & _ & Ha & _). apply Z.div_pos; auto. rewrite (ao_size _ Ha).
    pose proof (zprod_pos _ (ao_pos _ Ha)). lia. }
  destruct N1 as [A1 A2 A3 A4 A5 A6 A7 A8 A9 A10]. destruct N2 as [B1 B2 B3 B4 B5 B6 B7 B8 B9 B10].
  (* the elements shown by both *)
  assert (HES : exists es, zlen es = nrows nmemb a * nmemb /\ Forall (fun v => length v = Z.to_nat (itemsize (e_me e1) dt)) es /\
      forall j v, nth_error (rows_of nmemb (nrows nmemb a) es) j = Some v -> t_row t1 (o + Z.of_nat j) = Some v).
  { destruct (stored_elems e1 base1 dt nmemb _ (proj2 A6) A10 t1 g1 b1 o (Z.to_nat (nrows nmemb a)) I1) as [(r & Hr1 & Hr2)|(es & L & HF1 & Hst)].
    - rewrite Z2Nat.id in Hr1 by auto. specialize (Hw r Hr1). destruct (t_row t1 r) as [v|] eqn:Ev; [|congruence].
      pose proof (hv_row _ _ _ _ _ _ _ _ I1 _ _ Ev) as HH. congruence.
    - rewrite Z2Nat.id in L, Hst by auto. exists es. split; [exact L|]. split; [exact HF1|].
      intros j v Hj. specialize (Hst j v Hj).
      assert (Hj2 : (j < Z.to_nat (nrows nmemb a))%nat).
      { pose proof (proj1 (nth_error_Some (rows_of nmemb (nrows nmemb a) es) j)) as Hlt. rewrite Hj in Hlt.
        specialize (Hlt ltac:(discriminate)). unfold rows_of in Hlt. rewrite map_length, group_length in Hlt. exact Hlt. }
      specialize (Hw (o + Z.of_nat j) ltac:(lia)). destruct (t_row t1 (o + Z.of_nat j)) as [v'|] eqn:Ev; [|congruence].
      pose proof (hv_row _ _ _ _ _ _ _ _ I1 _ _ Ev) as HH. congruence. }
  destruct HES as (es & Les & Fes & Hrows).
  assert (HO : exists outs, Forall2 (converts (e_me e1) dt (a_dtype a)) es outs).
  { destruct Hok as (_ & _ & _ & _ & _ & Hc & _). exact (Forall_choice _ _ es Hc Fes). }
  destruct HO as [outs HO].
  destruct (hist_step e1 base1 dt nmemb _ A1 A7 (proj2 A6) A9 A10 t1 g1 b1 _ I1 Hok) as ([rc1 m1] & f1' & b1' & t1' & X1 & Y1 & _).
  destruct (hist_step e2 base2 (dtype_normalize (e_me e2) d) nmemb _ B1 B7 (proj2 B6) B9 B10 t2 g2 b2 _ I2 Hok2) as ([rc2 m2] & f2' & b2' & t2' & X2 & Y2 & _).
  destruct (hread_state _ _ _ _ _ _ _ _ _ X1) as [-> ->]. destruct (hread_state _ _ _ _ _ _ _ _ _ X2) as [-> ->].
  inversion Y1 as [| |o1 a1 u1 c1 um1 _ P1 _| | |]; subst. inversion Y2 as [| |o2 a2 u2 c2 um2 _ P2 _| | |]; subst.
  destruct (P1 es outs) as [-> W1]; auto.
  { intros j v Hj. left. auto. }
  rewrite <- Eme in P2. destruct (P2 es outs) as [-> W2]; auto; try lia.
  { intros j v Hj. left. rewrite <- Hr. auto. }
  exists um1, um2. split; [exact X1|]. split; [exact X2|]. eapply wrote_unique; eauto.
Qed.
