(* Record I/O implements a table of records. *)
From Coq.Strings Require Import Byte String.
From Coq Require Import List ZArith Lia Bool ZifyBool ZifyNat.
From Verif Require Import Base BaseFacts Dtype Cast Array FS Fmt Attr Block File Record Spec AttrSpec OpenSpec HistSpec RecSpec
  SeekFacts FSFacts ArrayFacts ConvFacts WriteFacts ReadFacts TableFacts IOFacts
  HeaderFacts DtypeFacts AttrFacts TextFacts OpenFacts ReopenFacts SessFacts HistFacts FrameFacts RecFacts.
Import ListNotations.
Open Scope Z_scope.
Local Open Scope out_scope.
Ltac Zify.zify_post_hook ::= Z.div_mod_to_equations.

Lemma skipn_skipn' {A} a : forall b (l : list A), skipn a (skipn b l) = skipn (b + a) l.
Proof. induction b as [|b IH]; intros l; cbn; auto. destruct l; cbn; auto. destruct a; auto. Qed.
Lemma nth_error_firstn' {A} n : forall i (l : list A), (i < n)%nat -> nth_error (firstn n l) i = nth_error l i.
Proof. induction n as [|n IH]; intros i l Hi; [lia|]. destruct l, i; cbn; auto. apply IH. lia. Qed.
Lemma nth_error_skipn' {A} n : forall i (l : list A), nth_error (skipn n l) i = nth_error l (n + i).
Proof. induction n as [|n IH]; intros i l; cbn; auto. destruct l; cbn; auto. destruct i; auto. Qed.

(* ------------------------------------------------ elements of a field *)
Definition field_elems (fd : rfield) (recs : list bytes) : list bytes :=
  flat_map (fun v => group (Z.to_nat (rf_elsize fd)) (Z.to_nat (rf_nmemb fd)) (field_of fd v)) recs.

Lemma group_nth {A} k n : forall (l : list A) i, (i < n)%nat -> nth_error (group k n l) i = Some (firstn k (skipn (i * k) l)).
Proof.
  induction n as [|n IH]; intros l [|i] Hi; try lia; cbn [group nth_error]; auto.
  rewrite IH by lia. rewrite skipn_skipn'. reflexivity.
Qed.
Lemma nth_flat {A B} (g : A -> list B) m l : (0 < m)%nat -> (forall x, length (g x) = m) ->
  forall j i, (i < m)%nat -> nth_error (flat_map g l) (j * m + i) = match nth_error l j with Some x => nth_error (g x) i | None => None end.
Proof.
  intros Hm Hg. induction l as [|x l IH]; intros j i Hi.
  - cbn [flat_map]. destruct j, i; cbn; auto; try (destruct (j * m + S i)%nat; auto);
    match goal with |- nth_error [] ?n = _ => destruct n; auto end.
  - cbn [flat_map]. destruct j as [|j].
    + cbn [nth_error Nat.mul Nat.add]. rewrite nth_error_app1; auto. rewrite Hg. auto.
    + cbn [nth_error]. rewrite nth_error_app2 by (rewrite Hg; lia). rewrite Hg.
      replace (S j * m + i - m)%nat with (j * m + i)%nat by lia. apply IH. auto.
Qed.
Lemma field_elems_len fd recs : length (field_elems fd recs) = (length recs * Z.to_nat (rf_nmemb fd))%nat.
Proof. unfold field_elems. induction recs as [|v recs IH]; cbn; auto. rewrite app_length, IH, WriteFacts.group_length. lia. Qed.

Lemma elem_addr_view A d n m I E s k : 0 < m -> 0 <= k ->
  elem_addr (mkArray A d [n; m] [I; E] s) k = A + (k / m) * I + (k mod m) * E.
Proof.
  intros Hm Hk. unfold elem_addr. cbn [a_data a_dims a_strides row_major dot zprod fold_right].
  unfold zprod. cbn [fold_right]. rewrite Z.mul_1_r, Z.div_1_r. lia.
Qed.

Section Field.
  Variables (rt : rtype) (fd : rfield) (k0 : nat).
  Hypothesis HP : packed rt.
  Hypothesis Hfd : nth_error (rt_fields rt) k0 = Some fd.
  Hypothesis Hel : 0 < rf_elsize fd.
  Hypothesis Hnm : 0 < rf_nmemb fd.

  Lemma field_of_len v : length v = Z.to_nat (rt_itemsize rt) -> length (field_of fd v) = Z.to_nat (fwidth fd).
  Proof.
    intros Hv. destruct (packed_field _ _ _ HP Hfd) as (A1 & A2 & A3). unfold field_of. rewrite firstn_length, skipn_length. lia.
  Qed.
  Lemma width_nat : Z.to_nat (fwidth fd) = (Z.to_nat (rf_nmemb fd) * Z.to_nat (rf_elsize fd))%nat.
  Proof. unfold fwidth. nia. Qed.
  Lemma load_field m a v : load m a (Z.to_nat (rt_itemsize rt)) = Some v ->
    load m (a + rf_offset fd) (Z.to_nat (fwidth fd)) = Some (field_of fd v).
  Proof.
    intros H. destruct (packed_field _ _ _ HP Hfd) as (A1 & A2 & A3).
    replace (Z.to_nat (rt_itemsize rt)) with (Z.to_nat (rf_offset fd) + (Z.to_nat (fwidth fd) + Z.to_nat (rt_itemsize rt - rf_offset fd - fwidth fd)))%nat in H by lia.
    apply load_split in H. destruct H as [_ H]. apply load_split in H. destruct H as [H _].
    replace (a + rf_offset fd) with (a + Z.of_nat (Z.to_nat (rf_offset fd))) by lia. exact H.
  Qed.

  Lemma rows_of_field recs : Forall (fun v => length v = Z.to_nat (rt_itemsize rt)) recs ->
    rows_of (rf_nmemb fd) (zlen recs) (field_elems fd recs) = map (field_of fd) recs.
  Proof.
    induction 1 as [|v recs Hv Hr IH]; [reflexivity|].
    change (field_elems fd (v :: recs)) with
      (group (Z.to_nat (rf_elsize fd)) (Z.to_nat (rf_nmemb fd)) (field_of fd v) ++ field_elems fd recs).
    replace (zlen (v :: recs)) with (1 + zlen recs) by (unfold zlen; cbn [length]; lia).
    rewrite rows_of_app; try (unfold zlen; rewrite ?WriteFacts.group_length; lia).
    rewrite IH. cbn [map]. change (?a :: ?l) with ([a] ++ l). f_equal.
    unfold rows_of. change (Z.to_nat 1) with 1%nat. cbn [group map]. f_equal.
    rewrite firstn_all2 by (rewrite WriteFacts.group_length; lia). apply group_concat. rewrite field_of_len by auto. apply width_nat.
  Qed.

  Variables (buf n : Z) (d : bytes).
  Let a := mkArray (buf + rf_offset fd) d [n; rf_nmemb fd] [rt_itemsize rt; rf_elsize fd] (n * rf_nmemb fd).

  Lemma view_addr j i : 0 <= j -> 0 <= i < rf_nmemb fd ->
    elem_addr a (j * rf_nmemb fd + i) = slot rt buf j fd + i * rf_elsize fd.
  Proof.
    intros Hj Hi. unfold a. rewrite elem_addr_view by nia. unfold slot.
    replace ((j * rf_nmemb fd + i) / rf_nmemb fd) with j by (rewrite Z.add_comm, Z.div_add, Z.div_small by lia; lia).
    replace ((j * rf_nmemb fd + i) mod rf_nmemb fd) with i by (rewrite Z.add_comm, Z.mod_add, Z.mod_small by lia; lia). lia.
  Qed.
  Lemma elem_split k : 0 <= k -> exists j i, k = j * rf_nmemb fd + i /\ 0 <= j /\ 0 <= i < rf_nmemb fd /\ (k < n * rf_nmemb fd -> j < n).
  Proof.
    intros Hk. exists (k / rf_nmemb fd), (k mod rf_nmemb fd). pose proof (Z.div_mod k (rf_nmemb fd) ltac:(lia)).
    pose proof (Z.mod_pos_bound k (rf_nmemb fd) Hnm). split; [lia|]. split; [apply Z.div_pos; lia|]. split; [lia|].
    intros Hlt. apply Z.div_lt_upper_bound; lia.
  Qed.
  (* an element lies in the slot of its record *)
  Lemma in_view x : 0 <= n -> in_elems (elem_addr a) (rf_elsize fd) 0 (n * rf_nmemb fd) x ->
    exists j, 0 <= j < n /\ slot rt buf j fd <= x < slot rt buf j fd + fwidth fd.
  Proof.
    intros Hn (k & Hk & Hx). destruct (elem_split k ltac:(lia)) as (j & i & -> & Hj & Hi & Hlt).
    exists j. split; [lia|]. rewrite view_addr in Hx by lia. unfold fwidth. nia.
  Qed.
  Lemma view_disjoint : 0 <= n -> elems_disjoint (elem_addr a) (rf_elsize fd) 0 (n * rf_nmemb fd).
  Proof.
    intros Hn x y Hxy Hy. destruct (elem_split x ltac:(lia)) as (j & i & -> & Hj & Hi & _).
    destruct (elem_split y ltac:(lia)) as (j' & i' & -> & Hj' & Hi' & _). rewrite !view_addr by lia.
    destruct (packed_field _ _ _ HP Hfd) as (A1 & A2 & A3). unfold slot, fwidth in *.
    destruct (Z.lt_trichotomy j j') as [H|[->|H]]; nia.
  Qed.

  Lemma elems_hold m recs : zlen recs = n ->
    (forall j v, nth_error recs j = Some v -> load m (slot rt buf (Z.of_nat j) fd) (Z.to_nat (fwidth fd)) = Some (field_of fd v)) ->
    holds m (elem_addr a) (rf_elsize fd) 0 (field_elems fd recs).
  Proof.
    intros Hl Hr k v Hk. assert (Hlt : (k < length (field_elems fd recs))%nat) by (apply nth_error_Some; congruence).
    rewrite field_elems_len in Hlt. destruct (elem_split (Z.of_nat k) ltac:(lia)) as (j & i & Ek & Hj & Hi & _).
    replace k with (Z.to_nat j * Z.to_nat (rf_nmemb fd) + Z.to_nat i)%nat in Hk by nia.
    unfold field_elems in Hk. rewrite (nth_flat _ (Z.to_nat (rf_nmemb fd))) in Hk; [|lia|intros; apply WriteFacts.group_length|lia].
    destruct (nth_error recs (Z.to_nat j)) as [u|] eqn:Eu; [|discriminate].
    rewrite group_nth in Hk by lia. injection Hk as <-. pose proof (Hr _ _ Eu) as Hu. unfold slot in Hu.
    replace (0 + Z.of_nat k) with (j * rf_nmemb fd + i) by lia. rewrite view_addr by lia. unfold slot.
    replace (Z.to_nat (fwidth fd)) with (Z.to_nat (i * rf_elsize fd) + (Z.to_nat (rf_elsize fd) + Z.to_nat ((rf_nmemb fd - 1 - i) * rf_elsize fd)))%nat in Hu
      by (unfold fwidth; nia).
    apply load_split in Hu. destruct Hu as [_ Hu]. apply load_split in Hu. destruct Hu as [Hu _].
    replace (Z.to_nat i * Z.to_nat (rf_elsize fd))%nat with (Z.to_nat (i * rf_elsize fd)) by nia.
    rewrite (Z2Nat.id j) in Hu by lia.
    replace (buf + j * rt_itemsize rt + rf_offset fd + i * rf_elsize fd) with
      (buf + j * rt_itemsize rt + rf_offset fd + Z.of_nat (Z.to_nat (i * rf_elsize fd))) by lia. exact Hu.
  Qed.

  (* what the elements put into slot j *)
  Lemma slot_holds m (vs : list bytes) j : holds m (elem_addr a) (rf_elsize fd) 0 vs -> 0 <= j < n -> zlen vs = n * rf_nmemb fd ->
    load m (slot rt buf j fd) (Z.to_nat (fwidth fd)) =
      Some (concat (firstn (Z.to_nat (rf_nmemb fd)) (skipn (Z.to_nat j * Z.to_nat (rf_nmemb fd)) vs))).
  Proof.
    intros Hh Hj Hl. set (g := firstn _ _).
    assert (Lg : zlen g = rf_nmemb fd).
    { unfold g, zlen in *. rewrite firstn_length, skipn_length. nia. }
    assert (Hg : holds m (fun i => slot rt buf j fd + i * rf_elsize fd) (rf_elsize fd) 0 g).
    { intros i v Hi. assert (Hlt : (i < length g)%nat) by (apply nth_error_Some; congruence). unfold zlen in Lg.
      unfold g in Hi. rewrite nth_error_firstn' in Hi by lia. rewrite nth_error_skipn' in Hi.
      pose proof (Hh _ _ Hi) as H1. replace (0 + Z.of_nat (Z.to_nat j * Z.to_nat (rf_nmemb fd) + i)) with (j * rf_nmemb fd + Z.of_nat i) in H1 by nia.
      rewrite view_addr in H1 by lia. exact H1. }
    pose proof (concat_load m (fun i => slot rt buf j fd + i * rf_elsize fd) (rf_elsize fd) (slot rt buf j fd) g 0 ltac:(lia) ltac:(auto) Hg) as HX.
    rewrite Lg in HX. replace (slot rt buf j fd + 0 * rf_elsize fd) with (slot rt buf j fd) in HX by lia.
    unfold fwidth. rewrite Z.mul_comm. exact HX.
  Qed.
End Field.

(* ------------------------------------------------ the fields cover the record *)
Lemma cover_list (g : rfield -> Z) : forall fl x, Forall (fun fd => 0 <= g fd) fl -> 0 <= x < zsum (map g fl) ->
  exists k fd, nth_error fl k = Some fd /\ zsum (map g (firstn k fl)) <= x < zsum (map g (firstn k fl)) + g fd.
Proof.
  induction fl as [|fd fl IH]; intros x Hf Hx; [cbn in Hx; lia|]. inversion Hf as [|y z H1 H2]; subst.
  assert (E : zsum (map g (fd :: fl)) = g fd + zsum (map g fl)) by reflexivity.
  destruct (Z_lt_dec x (g fd)) as [Hlt|Hge].
  - exists 0%nat, fd. split; auto. cbn. lia.
  - destruct (IH (x - g fd) H2 ltac:(lia)) as (k & fd' & Hk & Hr). exists (S k), fd'. split; auto.
    assert (E2 : zsum (map g (firstn (S k) (fd :: fl))) = g fd + zsum (map g (firstn k fl))) by reflexivity. lia.
Qed.
Lemma cover rt x : packed rt -> 0 <= x < rt_itemsize rt ->
  exists k fd, nth_error (rt_fields rt) k = Some fd /\ rf_offset fd <= x < rf_offset fd + fwidth fd.
Proof.
  intros [P1 P2 P3] Hx. rewrite P1 in Hx. destruct (cover_list _ _ x P2 Hx) as (k & fd & Hk & Hr).
  exists k, fd. split; auto. rewrite (P3 _ _ Hk). exact Hr.
Qed.
Lemma load_record rt m a v : packed rt -> length v = Z.to_nat (rt_itemsize rt) ->
  (forall k fd, nth_error (rt_fields rt) k = Some fd -> load m (a + rf_offset fd) (Z.to_nat (fwidth fd)) = Some (field_of fd v)) ->
  load m a (Z.to_nat (rt_itemsize rt)) = Some v.
Proof.
  intros HP Hv H. apply load_intro; auto. intros x Hx.
  destruct (cover rt (Z.of_nat x) HP ltac:(lia)) as (k & fd & Hk & Hr). specialize (H k fd Hk).
  destruct (packed_field _ _ _ HP Hk) as (A1 & A2 & A3).
  pose proof (load_nth _ _ _ _ H (Z.to_nat (Z.of_nat x - rf_offset fd)) ltac:(lia)) as HX.
  replace (a + rf_offset fd + Z.of_nat (Z.to_nat (Z.of_nat x - rf_offset fd))) with (a + Z.of_nat x) in HX by lia.
  rewrite HX. unfold field_of. rewrite nth_error_firstn' by lia. rewrite nth_error_skipn'. f_equal. lia.
Qed.
Lemma itemsize_nonneg rt : packed rt -> 0 <= rt_itemsize rt.
Proof.
  intros [P1 P2 P3]. rewrite P1. pose proof (zsum_firstn_le _ _ (length (rt_fields rt)) P2) as H. rewrite firstn_all in H. lia.
Qed.

(* ------------------------------------------------ one operation on one field *)
Lemma field_step e base dt nmemb w t f op : kind_ok e base dt nmemb w -> closed e base dt nmemb w t f ->
  hop_ok (e_me e) dt nmemb (t_sizes t) op -> op <> HReopen ->
  exists b x f1 b1 t1 f2, big_block_open e f base = Ret (Some b) /\ hstep e (f, b) op = Ret (x, (f1, b1)) /\
    big_block_close e f1 b1 = Ret (0, f2) /\ hspec (e_me e) dt nmemb t op x t1 /\
    closed e base dt nmemb w t1 f2 /\ frames base f f2 /\ t_sizes t1 = sizes_after (t_sizes t) op.
Proof.
  intros K C Ho Hne. destruct (closed_open _ _ _ _ _ _ _ K C) as (b & Eo & I). destruct K.
  destruct (hist_step e base dt nmemb w ko_name ko_type ko_nmemb ko_chunk ko_width t f b op I Ho) as (x & f1 & b1 & t1 & E1 & S1 & I1 & Z1 & _).
  destruct (close_closed _ _ _ _ _ _ _ _ I1) as (f2 & Ec & C2).
  exists b, x, f1, b1, t1, f2. repeat (split; [assumption|]). split; [|assumption].
  pose proof (hv_base _ _ _ _ _ _ _ _ I) as Hb.
  assert (HN : 0 <= b_Nfile b) by (rewrite (hl_Nfile _ _ (wb_layout _ _ _ _ (hv_wb _ _ _ _ _ _ _ _ I))); apply zlen_nonneg).
  destruct (hstep_frames _ _ _ _ _ _ _ HN Hne E1) as [F1 B1]. apply close_frames in Ec. rewrite B1, Hb in *.
  eapply frames_trans; eauto.
Qed.

(* the loops over the fields *)
Lemma each_field_ok {A} (body : Z -> A -> out (Z * A)) (Inv : nat -> A -> Prop) n :
  (forall i st, (i < n)%nat -> Inv i st -> exists st', body (Z.of_nat i) st = Ret (0, st') /\ Inv (S i) st') ->
  forall m k st, (k + m)%nat = n -> Inv k st -> exists st', each_field body m (Z.of_nat k) st = Ret (0, st') /\ Inv n st'.
Proof.
  intros Hb. induction m as [|m IH]; intros k st Hk I; cbn [each_field].
  - exists st. replace n with k by lia. auto.
  - destruct (Hb k st ltac:(lia) I) as (st1 & E & I1). rewrite E. cbn [bind]. change (0 =? 0) with true. cbv iota.
    replace (Z.of_nat k + 1) with (Z.of_nat (S k)) by lia. apply IH; auto. lia.
Qed.
(* the same when a field may fail *)
Lemma each_field_maybe {A} (body : Z -> A -> out (Z * A)) (Inv : nat -> A -> Prop) (Any : A -> Prop) n :
  (forall i st, Inv i st -> Any st) ->
  (forall i st, (i < n)%nat -> Inv i st -> exists rc st', body (Z.of_nat i) st = Ret (rc, st') /\ (rc = 0 -> Inv (S i) st') /\ Any st') ->
  forall m k st, (k + m)%nat = n -> Inv k st ->
  exists rc st', each_field body m (Z.of_nat k) st = Ret (rc, st') /\ Any st' /\ (rc = 0 /\ Inv n st' \/
    rc = -1 /\ exists i si ri, (i < n)%nat /\ Inv i si /\ body (Z.of_nat i) si = Ret (ri, st') /\ ri <> 0).
Proof.
  intros HA Hb. induction m as [|m IH]; intros k st Hk I; cbn [each_field].
  - exists 0, st. replace n with k by lia. split; [reflexivity|]. split; [eauto|left; auto].
  - destruct (Hb k st ltac:(lia) I) as (rc & st1 & E & I1 & A1). rewrite E. cbn [bind].
    destruct (rc =? 0) eqn:Er.
    + replace (Z.of_nat k + 1) with (Z.of_nat (S k)) by lia. apply IH; [lia|]. apply I1. lia.
    + exists (-1), st1. split; [reflexivity|]. split; auto. right. split; auto. exists k, st, rc. repeat split; auto; lia.
Qed.
Lemma each_field_fail {A} (body : Z -> A -> out (Z * A)) n i st rc st' : (0 < n)%nat -> body i st = Ret (rc, st') -> rc <> 0 ->
  each_field body n i st = Ret (-1, st').
Proof. intros Hn E Hr. destruct n; [lia|]. cbn [each_field]. rewrite E. cbn [bind]. destruct (rc =? 0) eqn:X; [lia|reflexivity]. Qed.

Lemma flat_slice {A B} (g : A -> list B) m : forall l j x, (forall y, length (g y) = m) -> nth_error l j = Some x ->
  firstn m (skipn (j * m) (flat_map g l)) = g x.
Proof.
  induction l as [|y l IH]; intros j x Hg Hj; [destruct j; discriminate Hj|]. destruct j as [|j]; cbn [nth_error] in Hj.
  - injection Hj as <-. cbn [Nat.mul skipn flat_map]. rewrite firstn_app, Hg, Nat.sub_diag, firstn_O, app_nil_r.
    apply firstn_all2. rewrite Hg. auto.
  - cbn [flat_map Nat.mul]. rewrite skipn_app, Hg, skipn_all2 by (rewrite Hg; lia). cbn [app].
    replace (m + j * m - m)%nat with (j * m)%nat by lia. apply IH; auto.
Qed.

Lemma classic_in addr w n x : in_elems addr w 0 n x \/ ~ in_elems addr w 0 n x.
Proof.
  destruct (Z_le_dec n 0) as [H|H]; [right; intros (j & Hj & _); lia|].
  replace n with (Z.of_nat (Z.to_nat n)) by lia. generalize (Z.to_nat n). clear n H. intros n. induction n as [|n IH].
  - right. intros (j & Hj & _). lia.
  - destruct IH as [(j & Hj & Hx)|IH]; [left; exists j; split; auto; lia|].
    destruct (Z_le_dec (addr (Z.of_nat n)) x) as [H1|H1]; [destruct (Z_lt_dec x (addr (Z.of_nat n) + w)) as [H2|H2]|].
    + left. exists (Z.of_nat n). split; lia.
    + right. intros (j & Hj & Hx). destruct (Z.eq_dec j (Z.of_nat n)) as [->|Hne]; [lia|]. apply IH. exists j. split; auto. lia.
    + right. intros (j & Hj & Hx). destruct (Z.eq_dec j (Z.of_nat n)) as [->|Hne]; [lia|]. apply IH. exists j. split; auto. lia.
Qed.

Lemma hspec_read_inv me dt nmemb t o a um x t1 : hspec me dt nmemb t (HRead o a um) x t1 ->
  t1 = t /\ exists rc um', x = (rc, Some um') /\
    (t_size t < o + nrows nmemb a -> rc = -1 /\ um' = um) /\
    (forall es outs, o + nrows nmemb a <= t_size t -> zlen es = nrows nmemb a * nmemb ->
       Forall (fun v => length v = Z.to_nat (itemsize me dt)) es ->
       (forall j v, nth_error (rows_of nmemb (nrows nmemb a) es) j = Some v -> shows (itemsize me dt * nmemb) t (o + Z.of_nat j) v) ->
       Forall2 (converts me dt (a_dtype a)) es outs ->
       rc = 0 /\ wrote um um' (elem_addr a) (itemsize me (a_dtype a)) 0 outs) /\
    (forall r, o + nrows nmemb a <= t_size t -> o <= r < o + nrows nmemb a -> absent t r -> rc = -1) /\
    (rc = -1 \/ rc = 0 /\ exists outs, zlen outs = nrows nmemb a * nmemb /\
       wrote um um' (elem_addr a) (itemsize me (a_dtype a)) 0 outs) /\
    (forall y, ~ in_elems (elem_addr a) (itemsize me (a_dtype a)) 0 (nrows nmemb a * nmemb) y -> um' y = um y).
Proof. intros H. inversion H as [| |o' a' um0 rc um' Q1 Q2 Q3 Q4 Q5| | |]; subst. split; auto. exists rc, um'. auto 10. Qed.

Definition field_tab (fd : rfield) (T t : table) : Prop :=
  t_sizes t = t_sizes T /\ forall r, t_row t r = option_map (field_of fd) (t_row T r).

Section Rec.
  Variables (e : env) (bf : bytes) (rt : rtype).
  Hypothesis K : rec_kind e bf rt.
  Let me := e_me e.
  Let HP := rk_packed _ _ _ K.

  Definition fbase (nm : bytes) : bytes := path_join bf nm.
  Definition fdt (fd : rfield) : bytes := dtype_normalize (e_me e) (rf_dtype fd).
  Definition fclosed (fd : rfield) (nm : bytes) (t : table) (f : fs) : Prop :=
    closed e (fbase nm) (fdt fd) (rf_nmemb fd) (fwidth fd) t f.
  (* the block of field k holds its part of the records *)
  Definition frec (T : table) (f : fs) (k : nat) : Prop :=
    forall fd nm, nth_error (rt_fields rt) k = Some fd -> rf_name fd = Some nm ->
      exists t, fclosed fd nm t f /\ field_tab fd T t.

  Lemma fk_kind fd nm : field_kind e bf fd nm -> kind_ok e (fbase nm) (fdt fd) (rf_nmemb fd) (fwidth fd).
  Proof. intros []. constructor; auto. lia. Qed.
  Lemma fdt_ok fd nm : field_kind e bf fd nm -> dt_ok (e_me e) (fdt fd) /\ itemsize (e_me e) (fdt fd) = rf_elsize fd.
  Proof.
    intros []. unfold fdt. rewrite itemsize_normalize. split; [|auto]. split; [apply normalize_idem|]. rewrite itemsize_normalize. auto.
  Qed.
  Lemma name_of fd nm nm' : field_kind e bf fd nm -> rf_name fd = Some nm' -> nm' = nm.
  Proof. intros [] H. congruence. Qed.

  (* an operation on field k leaves the others alone *)
  Lemma frec_other T T' f f' j k fd nm : j <> k -> nth_error (rt_fields rt) k = Some fd -> rf_name fd = Some nm ->
    frec T f k -> frames (fbase nm) f f' -> frec T' f j -> frec T' f' j.
  Proof.
    intros Hjk Hk Hnm Hf HF Hj fd' nm' Hk' Hnm'. destruct (Hj fd' nm' Hk' Hnm') as (t' & C' & T2).
    destruct (Hf fd nm Hk Hnm) as (t & C & _). exists t'. split; [|exact T2]. eapply closed_same; [|exact C'].
    eapply (frames_same (fbase nm)); [|exact (closed_dir _ _ _ _ _ _ _ C)|exact (proj1 (closed_dir _ _ _ _ _ _ _ C'))|exact HF].
    intros E. apply (rk_apart _ _ _ K j k fd' fd nm' nm); auto. exists []. rewrite app_nil_r. exact E.
  Qed.

  Lemma view_ret k fd nm n buf : nth_error (rt_fields rt) k = Some fd -> field_kind e bf fd nm ->
    view_field (e_me e) rt (Z.of_nat k) n buf =
      Ret (mkArray (buf + rf_offset fd) (fdt fd) [n; rf_nmemb fd] [rt_itemsize rt; rf_elsize fd] (n * rf_nmemb fd)).
  Proof.
    intros Hk F. unfold view_field. rewrite (the_field_nth _ _ _ Hk). cbn [bind]. unfold field_dtype.
    replace (length (rf_dtype fd) <? 8)%nat with true by (symmetry; apply Nat.ltb_lt; apply F). cbn [bind].
    unfold big_array_init. cbn. f_equal. unfold fdt. f_equal. unfold zprod. cbn. lia.
  Qed.
  Lemma tsize_tab fd T t : field_tab fd T t -> t_size t = t_size T.
  Proof. intros [H _]. unfold t_size. rewrite H. reflexivity. Qed.

  Lemma with_rows_tab fd T t o recs : field_tab fd T t -> field_tab fd (with_rows T o recs) (with_rows t o (map (field_of fd) recs)).
  Proof.
    intros [H1 H2]. split; [exact H1|]. intros r. cbn [with_rows t_row]. unfold zlen. rewrite map_length.
    destruct ((o <=? r) && (r <? o + Z.of_nat (length recs))); [|auto]. rewrite nth_error_map. reflexivity.
  Qed.

  Definition slots_at (fd : rfield) (m : mem) (buf : Z) (recs : list bytes) (g : bytes -> bytes) : Prop :=
    forall j v, nth_error recs j = Some v -> load m (slot rt buf (Z.of_nat j) fd) (Z.to_nat (fwidth fd)) = Some (g (field_of fd v)).
  Definition swapped (fd : rfield) (v : bytes) : bytes :=
    if dt_native (e_me e) (fdt fd) then v
    else concat (map (@rev byte) (group (Z.to_nat (rf_elsize fd)) (Z.to_nat (rf_nmemb fd)) v)).
  Definition only_slots (fd : rfield) (buf n : Z) (m m' : mem) : Prop :=
    forall x, (forall j, 0 <= j < n -> ~ (slot rt buf j fd <= x < slot rt buf j fd + fwidth fd)) -> m' x = m x.

  Lemma write_field_ok T f um o n buf k fd nm recs : nth_error (rt_fields rt) k = Some fd -> field_kind e bf fd nm ->
    frec T f k -> 0 <= o < 2 ^ 63 -> counts_ok rt n -> zlen recs = n ->
    Forall (fun v => length v = Z.to_nat (rt_itemsize rt)) recs -> slots_at fd um buf recs (fun v => v) ->
    exists f' um', write_field e bf rt o n buf (Z.of_nat k) (f, um) = Ret (if o + n <=? t_size T then 0 else -1, (f', um')) /\
      frames (fbase nm) f f' /\
      if o + n <=? t_size T then frec (with_rows T o recs) f' k /\ slots_at fd um' buf recs (swapped fd) /\ only_slots fd buf n um um'
      else frec T f' k /\ um' = um.
  Proof.
    intros Hk F Hf Ho (Hn & Hcnt) Hl Hw Hs. pose proof (fk_name _ _ _ _ F) as Hnm.
    destruct (Hf fd nm Hk Hnm) as (t & C & Tt). pose proof (fk_kind _ _ F) as Kk. destruct (fdt_ok _ _ F) as [Hdt His].
    assert (Hel : 0 < rf_elsize fd) by (rewrite (fk_elsize _ _ _ _ F); apply F).
    assert (Hnmb : 0 < rf_nmemb fd) by apply F.
    assert (Hcnt1 : n * rf_nmemb fd < 2 ^ 63) by (apply Hcnt; eapply nth_error_In; eauto).
    set (a := mkArray (buf + rf_offset fd) (fdt fd) [n; rf_nmemb fd] [rt_itemsize rt; rf_elsize fd] (n * rf_nmemb fd)).
    assert (Hnr : nrows (rf_nmemb fd) a = n) by (unfold nrows, a; cbn [a_size]; rewrite Z.div_mul; lia).
    assert (Hsrc : source (e_me e) (fdt fd) (rf_nmemb fd) a um (field_elems fd recs) (field_elems fd recs)).
    { split; [|split].
      - rewrite Hnr. unfold zlen in *. rewrite field_elems_len. nia.
      - change (a_dtype a) with (fdt fd). rewrite His. apply (elems_hold rt fd Hel Hnmb); auto.
      - change (a_dtype a) with (fdt fd). induction (field_elems fd recs); constructor; auto. apply converts_same. }
    assert (Hok : hop_ok (e_me e) (fdt fd) (rf_nmemb fd) (t_sizes t) (HWrite o a um)).
    { cbn [hop_ok]. change (a_dtype a) with (fdt fd). change (a_size a) with (n * rf_nmemb fd). split; [auto|]. split; [auto|]. split.
      - constructor; cbn; auto; try discriminate. unfold zprod. cbn. lia.
      - split; [auto|]. split; [left; auto|]. split; [eauto|]. intros _. rewrite Hnr, His.
        apply (view_disjoint rt fd k HP Hk Hel Hnmb). lia. }
    destruct (field_step _ _ _ _ _ _ _ _ Kk C Hok ltac:(discriminate)) as (b & x & f1 & b1 & t1 & f2 & Eo & Es & Ec & Sp & C2 & F2 & Z2).
    unfold write_field. rewrite (view_ret k fd nm n buf Hk F). fold a. cbn [bind]. rewrite (the_field_nth _ _ _ Hk). cbn [bind].
    rewrite Hnm. cbn [or_ub bind]. unfold big_file_open_block. fold (fbase nm). rewrite Eo. cbn [bind].
    cbn [hstep] in Es.
    assert (Hres : forall rc um', x = (rc, Some um') -> (rc = 0 \/ rc = -1) ->
      ('(rc0, p) <- big_block_seek b {| p_fileid := 0; p_roffset := 0; p_aoffset := 0 |} o;;
       (if negb (rc0 =? 0) then ' (_, f0) <- big_block_close e f b;; Ret (-1, (f0, um))
        else ' (y, um1) <- big_block_write e f b p a um;;
             (let '(y0, _) := y in let '(y1, b0) := y0 in let '(rc2, f0) := y1 in
              ' (rc3, f3) <- big_block_close e f0 b0;; Ret (if (rc2 =? 0) && (rc3 =? 0) then 0 else -1, (f3, um1))))) = Ret (rc, (f2, um'))).
    { intros rc um' -> Hrc. destruct (big_block_seek b _ o) as [[rc0 p]|u|]; cbn [bind] in Es; try discriminate Es. cbn [bind].
      destruct (negb (rc0 =? 0)) eqn:E0.
      - injection Es as <- <- <- <-. rewrite Ec. cbn [bind]. destruct Hrc; [lia|subst; auto].
      - destruct (big_block_write e f b p a um) as [[[[[rc2 fx] bx] px] umx]|u|]; cbn [bind] in Es; try discriminate Es.
        injection Es as <- <- <- <-. cbn [bind]. rewrite Ec. cbn [bind]. change (0 =? 0) with true. rewrite andb_true_r.
        destruct Hrc as [-> | ->]; reflexivity. }
    pose proof (tsize_tab _ _ _ Tt) as Hts.
    inversion Sp as [o' a' um0 um' vs outs Hle Hsrc' Hum|o' a' um0 Hgt| | | |]; subst.
    - destruct (source_unique e (fdt fd) (rf_nmemb fd) a um _ _ _ _ Hnmb ltac:(change (a_dtype a) with (fdt fd); lia) Hsrc' Hsrc) as [-> ->].
      rewrite Hnr in *. replace (o + zlen recs <=? t_size T) with true by lia.
      exists f2, um'. split; [apply Hres; auto|]. split; [auto|].
      rewrite (rows_of_field rt fd k HP Hk Hel Hnmb) in C2 by auto.
      split; [|split].
      + intros fd0 nm0 Hk0 Hn0. rewrite Hk in Hk0. injection Hk0 as <-. rewrite Hnm in Hn0. injection Hn0 as <-.
        eexists. split; [exact C2|]. apply with_rows_tab. auto.
      + intros j v Hj. unfold swapped. change (a_dtype a) with (fdt fd) in Hum. destruct (dt_native (e_me e) (fdt fd)).
        * subst um'. apply Hs. auto.
        * rewrite His in Hum. pose proof (wrote_holds _ _ _ _ _ _ Hum) as Hh.
          assert (Hj2 : (j < length recs)%nat) by (apply nth_error_Some; congruence).
          rewrite (slot_holds rt fd Hel Hnmb buf (zlen recs) (fdt fd) um' _ (Z.of_nat j) Hh); [|unfold zlen; lia|
            unfold zlen; rewrite map_length, field_elems_len; nia].
          rewrite Nat2Z.id, skipn_map, firstn_map. unfold field_elems.
          rewrite (flat_slice _ _ recs j v); auto. intros; apply WriteFacts.group_length.
      + intros x Hx. change (a_dtype a) with (fdt fd) in Hum. destruct (dt_native (e_me e) (fdt fd)); [subst; auto|].
        apply (proj2 Hum). rewrite His. intros Hin. replace (zlen (map (rev (A:=byte)) (field_elems fd recs))) with (zlen recs * rf_nmemb fd) in Hin
          by (unfold zlen; rewrite map_length, field_elems_len; nia).
        apply (in_view rt fd Hel Hnmb) in Hin; [|lia]. destruct Hin as (j & Hj & Hx2). exact (Hx j Hj Hx2).
    - rewrite Hnr in *. replace (o + zlen recs <=? t_size T) with false by lia.
      exists f2, um. split; [apply Hres; auto|]. split; [auto|]. split; [|auto].
      intros fd0 nm0 Hk0 Hn0. rewrite Hk in Hk0. injection Hk0 as <-. rewrite Hnm in Hn0. injection Hn0 as <-. eauto.
  Qed.
  (* every field *)
  Definition rec_inv (T : table) (f : fs) : Prop := forall k, (k < length (rt_fields rt))%nat -> frec T f k.
  Lemma the_kind k : (k < length (rt_fields rt))%nat -> exists fd nm, nth_error (rt_fields rt) k = Some fd /\ field_kind e bf fd nm.
  Proof.
    intros Hk. destruct (nth_error (rt_fields rt) k) as [fd|] eqn:E; [|apply nth_error_None in E; lia].
    destruct (rk_field _ _ _ K k fd E) as (nm & F). exists fd, nm. auto.
  Qed.
  Lemma nonempty : (0 < length (rt_fields rt))%nat.
  Proof. destruct (rt_fields rt) eqn:E; [|cbn; lia]. exfalso. exact (rk_some _ _ _ K E). Qed.

  Lemma slots_keep fd fd' k k' buf n m m' recs g : k <> k' -> nth_error (rt_fields rt) k = Some fd -> nth_error (rt_fields rt) k' = Some fd' ->
    only_slots fd buf n m m' -> slots_at fd' m buf recs g -> slots_at fd' m' buf recs g.
  Proof.
    intros Hne Hk Hk' Ho Hs j v Hj. rewrite <- (Hs j v Hj). apply load_ext. intros x Hx. apply Ho. intros j' Hj' Hin.
    destruct (packed_field _ _ _ HP Hk') as (_ & Hw & _).
    destruct (slots_disjoint rt buf (Z.of_nat j) j' k' k fd' fd HP Hk' Hk ltac:(congruence)); lia.
  Qed.
  Lemma slot_inside fd k buf n j : nth_error (rt_fields rt) k = Some fd -> 0 <= j < n ->
    buf <= slot rt buf j fd /\ slot rt buf j fd + fwidth fd <= buf + n * rt_itemsize rt.
  Proof.
    intros Hk Hj. destruct (packed_field _ _ _ HP Hk) as (A1 & A2 & A3). pose proof (itemsize_nonneg rt HP). unfold slot. nia.
  Qed.

  Lemma write_records_ok T f o n buf um recs : rec_inv T f -> 0 <= o < 2 ^ 63 -> counts_ok rt n -> recs_at rt um buf n recs ->
    exists f' um', write_records e f bf rt o n buf um = Ret (if o + n <=? t_size T then 0 else -1, (f', um')) /\
      if o + n <=? t_size T then rec_inv (with_rows T o recs) f' /\ left_by_write (e_me e) rt um um' buf n
      else rec_inv T f' /\ um' = um.
  Proof.
    intros I Ho Hc (Hl & Hr). pose proof nonempty as Hne. unfold write_records.
    assert (Hw : Forall (fun v => length v = Z.to_nat (rt_itemsize rt)) recs).
    { apply Forall_forall. intros v Hv. apply In_nth_error in Hv. destruct Hv as (j & Hj). apply Hr in Hj. apply load_length in Hj. auto. }
    assert (Hs0 : forall k fd, nth_error (rt_fields rt) k = Some fd -> slots_at fd um buf recs (fun v => v)).
    { intros k fd Hk j v Hj. apply (load_field rt fd k HP Hk). apply Hr. auto. }
    destruct (o + n <=? t_size T) eqn:Er.
    - pose (Inv := fun (i : nat) (st : fs * mem) => let '(g, m) := st in
        (forall k, (k < length (rt_fields rt))%nat -> frec (if (k <? i)%nat then with_rows T o recs else T) g k) /\
        (forall k fd, nth_error (rt_fields rt) k = Some fd -> slots_at fd m buf recs (if (k <? i)%nat then swapped fd else fun v => v)) /\
        forall x, ~ (buf <= x < buf + n * rt_itemsize rt) -> m x = um x).
      destruct (each_field_ok (write_field e bf rt o n buf) Inv (length (rt_fields rt))) with (m := length (rt_fields rt)) (k := 0%nat) (st := (f, um))
        as ([f' um'] & E & (I1 & I2 & I3)).
      + intros i [g m] Hi (I1 & I2 & I3). destruct (the_kind i Hi) as (fd & nm & Hk & F).
        assert (Hfi : frec T g i) by (specialize (I1 i Hi); rewrite Nat.ltb_irrefl in I1; exact I1).
        assert (Hsi : slots_at fd m buf recs (fun v => v)) by (specialize (I2 i fd Hk); rewrite Nat.ltb_irrefl in I2; exact I2).
        destruct (write_field_ok T g m o n buf i fd nm recs Hk F Hfi Ho Hc Hl Hw Hsi) as (g' & m' & E & Fr & R). rewrite Er in *.
        destruct R as (R1 & R2 & R3). exists (g', m'). split; [exact E|]. split; [|split].
        * intros k Hk2. destruct (Nat.eq_dec k i) as [->|Hne2].
          { replace (i <? S i)%nat with true by (symmetry; apply Nat.ltb_lt; lia). exact R1. }
          assert (Hsame : (k <? S i)%nat = (k <? i)%nat).
          { destruct (Nat.ltb_spec k i), (Nat.ltb_spec k (S i)); auto; lia. }
          rewrite Hsame. eapply frec_other; [exact Hne2|exact Hk|apply F|exact Hfi|exact Fr|apply I1; auto].
        * intros k fd' Hk'. destruct (Nat.eq_dec k i) as [->|Hne2].
          { rewrite Hk in Hk'. injection Hk' as <-. replace (i <? S i)%nat with true by (symmetry; apply Nat.ltb_lt; lia). exact R2. }
          assert (Hsame : (k <? S i)%nat = (k <? i)%nat).
          { destruct (Nat.ltb_spec k i), (Nat.ltb_spec k (S i)); auto; lia. }
          rewrite Hsame. eapply (slots_keep fd fd' i k); eauto.
        * intros x Hx. rewrite <- I3 by auto. apply R3. intros j Hj Hin. pose proof (slot_inside fd i buf n j Hk Hj). lia.
      + lia.
      + split; [|split]; auto.
      + change (Z.of_nat 0) with 0 in E. exists f', um'. split; [exact E|]. split.
        * intros k Hk. specialize (I1 k Hk). replace (k <? length (rt_fields rt))%nat with true in I1 by (symmetry; apply Nat.ltb_lt; auto). exact I1.
        * split; [exact I3|]. intros k fd j v Hk Hj Hv.
          destruct (nth_error recs (Z.to_nat j)) as [u|] eqn:Eu; [|apply nth_error_None in Eu; unfold zlen in Hl; lia].
          pose proof (I2 k fd Hk _ _ Eu) as H2. pose proof (Hs0 k fd Hk _ _ Eu) as H1. rewrite Z2Nat.id in H1, H2 by lia.
          assert (Hkl : (k < length (rt_fields rt))%nat) by (apply nth_error_Some; congruence).
          replace (k <? length (rt_fields rt))%nat with true in H2 by (symmetry; apply Nat.ltb_lt; auto).
          rewrite H2. rewrite Hv in H1. injection H1 as <-. reflexivity.
    - destruct (the_kind 0%nat Hne) as (fd & nm & Hk & F).
      destruct (write_field_ok T f um o n buf 0%nat fd nm recs Hk F (I 0%nat Hne) Ho Hc Hl Hw (Hs0 _ _ Hk)) as (f' & um' & E & Fr & R).
      rewrite Er in *. destruct R as [R1 ->]. exists f', um. split; [eapply each_field_fail; [exact Hne|exact E|lia]|]. split; [|auto].
      intros k Hk2. destruct (Nat.eq_dec k 0) as [->|Hne2]; [exact R1|].
      eapply frec_other; [exact Hne2|exact Hk|apply F|exact (I 0%nat Hne)|exact Fr|apply I; auto].
  Qed.

  (* ---------------------------------------------------------- reading *)
  Lemma field_zero fd k : nth_error (rt_fields rt) k = Some fd ->
    field_of fd (repeat x00 (Z.to_nat (rt_itemsize rt))) = repeat x00 (Z.to_nat (fwidth fd)).
  Proof.
    intros Hk. destruct (packed_field _ _ _ HP Hk) as (A1 & A2 & A3). unfold field_of.
    replace (Z.to_nat (rt_itemsize rt)) with (Z.to_nat (rf_offset fd) + (Z.to_nat (fwidth fd) + Z.to_nat (rt_itemsize rt - rf_offset fd - fwidth fd)))%nat by lia.
    rewrite !repeat_app. rewrite skipn_app, repeat_length, Nat.sub_diag, skipn_all2 by (rewrite repeat_length; lia). cbn [app skipn].
    rewrite firstn_app, repeat_length, Nat.sub_diag, firstn_O, app_nil_r. apply firstn_all2. rewrite repeat_length. lia.
  Qed.
  Lemma shows_field fd k T t r v : nth_error (rt_fields rt) k = Some fd -> field_tab fd T t ->
    shows (rt_itemsize rt) T r v -> shows (fwidth fd) t r (field_of fd v).
  Proof.
    intros Hk [T1 T2] [H|(H1 & -> & r2 & H2 & H3 & H4)].
    - left. rewrite T2, H. reflexivity.
    - right. split; [rewrite T2, H1; auto|]. split; [apply (field_zero fd k Hk)|]. exists r2. rewrite T1. split; auto. split; auto.
      rewrite T2. destruct (t_row T r2); [discriminate|congruence].
  Qed.
  Lemma absent_field fd T t r : field_tab fd T t -> absent T r -> absent t r.
  Proof.
    intros [T1 T2] [A1 A2]. split; [rewrite T2, A1; auto|]. intros r2 H1 H2. rewrite T1 in H2. rewrite T2, (A2 r2 H1 H2). auto.
  Qed.

  Lemma read_field_ok T f um o n buf k fd nm : nth_error (rt_fields rt) k = Some fd -> field_kind e bf fd nm ->
    frec T f k -> 0 <= o < 2 ^ 63 -> counts_ok rt n ->
    (forall x, buf <= x < buf + n * rt_itemsize rt -> um x <> None) ->
    exists rc f' um', read_field e bf rt o n buf (Z.of_nat k) (f, um) = Ret (rc, (f', um')) /\
      (rc = 0 \/ rc = -1) /\ frames (fbase nm) f f' /\ frec T f' k /\ only_slots fd buf n um um' /\
      (t_size T < o + n -> rc = -1 /\ um' = um) /\
      (forall recs, o + n <= t_size T -> zlen recs = n -> Forall (fun v => length v = Z.to_nat (rt_itemsize rt)) recs ->
         (forall j v, nth_error recs j = Some v -> shows (rt_itemsize rt) T (o + Z.of_nat j) v) ->
         rc = 0 /\ slots_at fd um' buf recs (fun v => v)) /\
      (forall r, o + n <= t_size T -> o <= r < o + n -> absent T r -> rc = -1) /\
      (rc = 0 -> forall x, um x <> None -> um' x <> None).
  Proof.
    intros Hk F Hf Ho (Hn & Hcnt) Hm. pose proof (fk_name _ _ _ _ F) as Hnm.
    destruct (Hf fd nm Hk Hnm) as (t & C & Tt). pose proof (fk_kind _ _ F) as Kk. destruct (fdt_ok _ _ F) as [Hdt His].
    assert (Hel : 0 < rf_elsize fd) by (rewrite (fk_elsize _ _ _ _ F); apply F).
    assert (Hnmb : 0 < rf_nmemb fd) by apply F.
    assert (Hcnt1 : n * rf_nmemb fd < 2 ^ 63) by (apply Hcnt; eapply nth_error_In; eauto).
    set (a := mkArray (buf + rf_offset fd) (fdt fd) [n; rf_nmemb fd] [rt_itemsize rt; rf_elsize fd] (n * rf_nmemb fd)).
    assert (Hnr : nrows (rf_nmemb fd) a = n) by (unfold nrows, a; cbn [a_size]; rewrite Z.div_mul; lia).
    assert (Hok : hop_ok (e_me e) (fdt fd) (rf_nmemb fd) (t_sizes t) (HRead o a um)).
    { cbn [hop_ok]. change (a_dtype a) with (fdt fd). change (a_size a) with (n * rf_nmemb fd). rewrite Hnr, His.
      split; [auto|]. split; [auto|]. split.
      - constructor; cbn; auto; try discriminate. unfold zprod. cbn. lia.
      - split; [auto|]. split; [left; auto|]. split; [intros v _; exists v; apply converts_same|]. split.
        + intros x Hx. apply (in_view rt fd Hel Hnmb) in Hx; [|lia]. destruct Hx as (j & Hj & Hx). apply Hm.
          pose proof (slot_inside fd k buf n j Hk Hj). lia.
        + apply (view_disjoint rt fd k HP Hk Hel Hnmb). lia. }
    destruct (field_step _ _ _ _ _ _ _ _ Kk C Hok ltac:(discriminate)) as (b & x & f1 & b1 & t1 & f2 & Eo & Es & Ec & Sp & C2 & F2 & Z2).
    unfold read_field. rewrite (view_ret k fd nm n buf Hk F). fold a. cbn [bind]. rewrite (the_field_nth _ _ _ Hk). cbn [bind].
    rewrite Hnm. cbn [or_ub bind]. unfold big_file_open_block. fold (fbase nm). rewrite Eo. cbn [bind].
    pose proof (hread_state _ _ _ _ _ _ _ _ _ Es) as [-> ->]. cbn [hstep] in Es.
    pose proof (tsize_tab _ _ _ Tt) as Hts.
    destruct (hspec_read_inv _ _ _ _ _ _ _ _ _ Sp) as (-> & rc & um' & -> & Q1 & Q2 & Q3 & Q4 & Q5). clear Sp.
    rewrite Hnr in Q1, Q2, Q3, Q4, Q5.
    change (a_dtype a) with (fdt fd) in Q2, Q4, Q5. rewrite His in Q2, Q4, Q5.
    exists rc, f2, um'. split.
    { destruct (big_block_seek b _ o) as [[rc0 p]|u|]; cbn [bind] in Es; try discriminate Es. cbn [bind].
      destruct (negb (rc0 =? 0)) eqn:E0.
      - injection Es as <- <-. rewrite Ec. cbn [bind]. destruct Q4 as [->|[-> _]]; [auto|lia].
      - destruct (big_block_read e f b p a um) as [[[rc2 px] umx]|u|]; cbn [bind] in Es; try discriminate Es.
        injection Es as <- <-. cbn [bind]. rewrite Ec. cbn [bind]. change (0 =? 0) with true. rewrite andb_true_r.
        destruct Q4 as [->|[-> _]]; reflexivity. }
    split; [destruct Q4 as [->|[-> _]]; auto|]. split; [auto|]. split.
    { intros fd0 nm0 Hk0 Hn0. rewrite Hk in Hk0. injection Hk0 as <-. rewrite Hnm in Hn0. injection Hn0 as <-. eauto. }
    split.
    { intros x Hx. apply Q5. intros Hin. apply (in_view rt fd Hel Hnmb) in Hin; [|lia]. destruct Hin as (j & Hj & Hx2). exact (Hx j Hj Hx2). }
    split; [intros; apply Q1; lia|]. split; [|split].
    - intros recs Hle Hl Hw Hsh. destruct (Q2 (field_elems fd recs) (field_elems fd recs)) as [-> W]; auto.
      + lia.
      + unfold zlen in *. rewrite field_elems_len. nia.
      + apply Forall_forall. intros v Hv. unfold field_elems in Hv. apply in_flat_map in Hv. destruct Hv as (u & Hu & Hv).
        rewrite Forall_forall in Hw. pose proof (group_lengths (Z.to_nat (rf_elsize fd)) (Z.to_nat (rf_nmemb fd)) (field_of fd u)) as HG.
        rewrite Forall_forall in HG. apply HG; auto. rewrite (field_of_len rt fd k HP Hk) by auto. apply width_nat; auto.
      + intros j v Hj. rewrite <- Hl in Hj. rewrite (rows_of_field rt fd k HP Hk Hel Hnmb) in Hj by auto. rewrite nth_error_map in Hj.
        destruct (nth_error recs j) as [u|] eqn:Eu; [|discriminate]. injection Hj as <-.
        apply (shows_field fd k T t); auto.
      + clear. induction (field_elems fd recs); constructor; auto. apply converts_same.
      + split; auto. intros j v Hj. pose proof (wrote_holds _ _ _ _ _ _ W) as Hh.
        assert (Hj2 : (j < length recs)%nat) by (apply nth_error_Some; congruence).
        rewrite (slot_holds rt fd Hel Hnmb buf n (fdt fd) um' _ (Z.of_nat j) Hh); [|unfold zlen in Hl; lia|
          unfold zlen in *; rewrite field_elems_len; nia].
        rewrite Nat2Z.id. unfold field_elems. rewrite (flat_slice _ _ recs j v); auto; [|intros; apply WriteFacts.group_length].
        f_equal. apply group_concat. rewrite Forall_forall in Hw.
        rewrite (field_of_len rt fd k HP Hk) by (apply Hw; eapply nth_error_In; eauto). apply width_nat; auto.
    - intros r Hle Hr Ha. apply (Q3 r); auto; [lia|]. eapply absent_field; eauto.
    - intros ->. destruct Q4 as [Q4|[_ (outs & Lo & W)]]; [discriminate|]. intros x Hx.
      destruct (classic_in (elem_addr a) (rf_elsize fd) (n * rf_nmemb fd) x) as [Hin|Hout]; [|rewrite Q5; auto].
      destruct Hin as (j & Hj & Hx2). assert (Hj2 : (Z.to_nat j < length outs)%nat) by (unfold zlen in Lo; lia).
      destruct (nth_error outs (Z.to_nat j)) as [v|] eqn:Ev; [|apply nth_error_None in Ev; lia].
      apply (proj1 W) in Ev. replace (0 + Z.of_nat (Z.to_nat j)) with j in Ev by lia.
      pose proof (load_mapped _ _ _ _ Ev (Z.to_nat (x - elem_addr a j)) ltac:(lia)) as HX.
      replace (elem_addr a j + Z.of_nat (Z.to_nat (x - elem_addr a j))) with x in HX by lia. exact HX.
  Qed.
  Definition lens (T : table) : Prop := forall r v, t_row T r = Some v -> length v = Z.to_nat (rt_itemsize rt).
  Lemma shows_len T r v : lens T -> shows (rt_itemsize rt) T r v -> length v = Z.to_nat (rt_itemsize rt).
  Proof. intros L [H|(_ & -> & _)]; [eapply L; eauto|apply repeat_length]. Qed.

  Lemma read_records_ok T f o n buf um : rec_inv T f -> lens T -> 0 <= o < 2 ^ 63 -> counts_ok rt n ->
    (forall x, buf <= x < buf + n * rt_itemsize rt -> um x <> None) ->
    exists rc f' um', read_records e f bf rt o n buf um = Ret (rc, (f', um')) /\ rec_inv T f' /\
      rspec (e_me e) rt T (RRead o n buf um) (rc, Some um') T.
  Proof.
    intros I HL Ho Hc Hm. pose proof nonempty as Hne. unfold read_records.
    destruct (Z_lt_dec (t_size T) (o + n)) as [Hout|Hin].
    - destruct (the_kind 0%nat Hne) as (fd & nm & Hk & F).
      destruct (read_field_ok T f um o n buf 0%nat fd nm Hk F (I 0%nat Hne) Ho Hc Hm)
        as (rc & f' & um' & E & _ & Fr & R1 & _ & R2 & _). destruct (R2 Hout) as [-> ->].
      exists (-1), f', um. split; [eapply each_field_fail; [exact Hne|exact E|lia]|]. split.
      + intros k Hk2. destruct (Nat.eq_dec k 0) as [->|Hne2]; [exact R1|].
        eapply frec_other; [exact Hne2|exact Hk|apply F|exact (I 0%nat Hne)|exact Fr|apply I; auto].
      + apply rs_read; auto; intros; lia.
    - pose (good := fun recs => zlen recs = n /\ forall j v, nth_error recs j = Some v -> shows (rt_itemsize rt) T (o + Z.of_nat j) v).
      pose (fine := fun recs => good recs /\ Forall (fun v => length v = Z.to_nat (rt_itemsize rt)) recs).
      pose (Inv := fun (i : nat) (st : fs * mem) => let '(g, m) := st in
        rec_inv T g /\
        (forall x, ~ (buf <= x < buf + n * rt_itemsize rt) -> m x = um x) /\
        (forall x, buf <= x < buf + n * rt_itemsize rt -> m x <> None) /\
        (forall recs, fine recs -> forall k fd, (k < i)%nat -> nth_error (rt_fields rt) k = Some fd -> slots_at fd m buf recs (fun v => v)) /\
        ((0 < i)%nat -> forall r, o <= r < o + n -> ~ absent T r)).
      pose (Any := fun st : fs * mem => let '(g, m) := st in rec_inv T g /\
        (forall x, ~ (buf <= x < buf + n * rt_itemsize rt) -> m x = um x)).
      assert (Hstep : forall i st, (i < length (rt_fields rt))%nat -> Inv i st -> exists rc st',
        read_field e bf rt o n buf (Z.of_nat i) st = Ret (rc, st') /\ (rc = 0 -> Inv (S i) st') /\ Any st' /\
        (forall recs, fine recs -> rc = 0)).
      { intros i [g m] Hi (I1 & I2 & I3 & I4 & I5). destruct (the_kind i Hi) as (fd & nm & Hk & F).
        destruct (read_field_ok T g m o n buf i fd nm Hk F (I1 i Hi) Ho Hc I3)
          as (rc & g' & m' & E & Hrc & Fr & R1 & R2 & _ & R4 & R5 & R6).
        assert (Irec : rec_inv T g').
        { intros k Hk2. destruct (Nat.eq_dec k i) as [->|Hne2]; [exact R1|].
          eapply frec_other; [exact Hne2|exact Hk|apply F|exact (I1 i Hi)|exact Fr|apply I1; auto]. }
        assert (Ifr : forall x, ~ (buf <= x < buf + n * rt_itemsize rt) -> m' x = um x).
        { intros x Hx. rewrite <- I2 by auto. apply R2. intros j Hj Hin2. pose proof (slot_inside fd i buf n j Hk Hj). lia. }
        exists rc, (g', m'). split; [exact E|]. split; [|split; [split; auto|]].
        - intros ->. split; [exact Irec|]. split; [exact Ifr|]. split; [intros x Hx; apply R6; auto|]. split.
          + intros recs [[Hl Hg] Hw] k fd' Hk1 Hk'. destruct (Nat.eq_dec k i) as [->|Hne2].
            * rewrite Hk in Hk'. injection Hk' as <-. apply R4; auto. lia.
            * eapply (slots_keep fd fd' i k); [lia|exact Hk|exact Hk'|exact R2|]. apply (I4 recs) with (k := k); [split; [split|]; auto|lia|auto].
          + intros _ r Hr Ha. specialize (R5 r ltac:(lia) Hr Ha). lia.
        - intros recs [[Hl Hg] Hw]. apply (R4 recs); auto. lia. }
      destruct (each_field_maybe (read_field e bf rt o n buf) Inv Any (length (rt_fields rt))) with (m := length (rt_fields rt)) (k := 0%nat) (st := (f, um))
        as (rc & [f' um'] & E & A & R); auto.
      + intros i [g m] (I1 & I2 & _). split; auto.
      + intros i st Hi HI. destruct (Hstep i st Hi HI) as (rc & st' & X1 & X2 & X3 & _). exists rc, st'. auto.
      + split; [exact I|]. split; [auto|]. split; [auto|]. split; intros; lia.
      + change (Z.of_nat 0) with 0 in E. destruct A as [A1 A2]. exists rc, f', um'. split; [exact E|]. split; [exact A1|].
        apply rs_read.
        * intros; lia.
        * intros recs _ Hl Hg.
          assert (Hw : Forall (fun v => length v = Z.to_nat (rt_itemsize rt)) recs).
          { apply Forall_forall. intros v Hv. apply In_nth_error in Hv. destruct Hv as (j & Hj). exact (shows_len T (o + Z.of_nat j) v HL (Hg j v Hj)). }
          assert (Hf : fine recs) by (split; [split|]; auto).
          destruct R as [[-> (_ & _ & _ & I4 & _)]|[-> (i & si & ri & Hi & HI & Eb & Hr)]].
          { split; auto. split; [|exact A2]. split; auto. intros j v Hj.
            apply load_record; auto.
            - rewrite Forall_forall in Hw. apply Hw. eapply nth_error_In; eauto.
            - intros k fd Hk. assert (Hkl : (k < length (rt_fields rt))%nat) by (apply nth_error_Some; congruence).
              exact (I4 recs Hf k fd Hkl Hk j v Hj). }
          { exfalso. destruct (Hstep i si Hi HI) as (rc & st' & X1 & _ & _ & X4). rewrite Eb in X1. injection X1 as <- _. exact (Hr (X4 recs Hf)). }
        * intros r _ Hr Ha. destruct R as [[-> (_ & _ & _ & _ & I5)]|[-> _]]; auto. exfalso. exact (I5 Hne r Hr Ha).
  Qed.

  (* --------------------------------------------------------- appending *)
  Lemma append_field_ok T f gs k fd nm : nth_error (rt_fields rt) k = Some fd -> field_kind e bf fd nm ->
    frec T f k -> layout_ok (t_sizes T ++ gs) -> zlen (t_sizes T ++ gs) <= 2 ^ 24 ->
    exists f', create_field e bf rt false (zlen gs) gs (Z.of_nat k) f = Ret (0, f') /\ frames (fbase nm) f f' /\
      frec (mkTab (t_sizes T ++ gs) (t_row T) (t_sum T)) f' k.
  Proof.
    intros Hk F Hf Hlay HN. pose proof (fk_name _ _ _ _ F) as Hnm.
    destruct (Hf fd nm Hk Hnm) as (t & C & [Tt1 Tt2]). pose proof (fk_kind _ _ F) as Kk.
    assert (Hok : hop_ok (e_me e) (fdt fd) (rf_nmemb fd) (t_sizes t) (HGrow gs)) by (cbn [hop_ok]; rewrite Tt1; auto).
    destruct (field_step _ _ _ _ _ _ _ _ Kk C Hok ltac:(discriminate)) as (b & x & f1 & b1 & t1 & f2 & Eo & Es & Ec & Sp & C2 & F2 & Z2).
    unfold create_field. rewrite (the_field_nth _ _ _ Hk). cbn [bind]. rewrite Hnm. cbn [or_ub bind].
    unfold field_dtype. replace (length (rf_dtype fd) <? 8)%nat with true by (symmetry; apply Nat.ltb_lt; apply F). cbn [bind].
    unfold big_file_open_block. fold (fbase nm). rewrite Eo. cbn [bind]. cbn [hstep] in Es.
    destruct (big_block_grow f b (zlen gs) gs) as [[[rc fx] bx]|u|]; cbn [bind] in Es; try discriminate Es.
    injection Es as <- <- <-. inversion Sp; subst. cbn [bind]. rewrite Ec. cbn [bind].
    exists f2. split; [reflexivity|]. split; [auto|].
    intros fd0 nm0 Hk0 Hn0. rewrite Hk in Hk0. injection Hk0 as <-. rewrite Hnm in Hn0. injection Hn0 as <-.
    eexists. split; [exact C2|]. split; cbn [t_sizes t_row]; [rewrite Tt1; auto|auto].
  Qed.
  Lemma append_records_ok T f gs : rec_inv T f -> layout_ok (t_sizes T ++ gs) -> zlen (t_sizes T ++ gs) <= 2 ^ 24 ->
    exists f', create_records e f bf rt false (zlen gs) gs = Ret (0, f') /\
      rec_inv (mkTab (t_sizes T ++ gs) (t_row T) (t_sum T)) f'.
  Proof.
    intros I Hlay HN. set (T2 := mkTab (t_sizes T ++ gs) (t_row T) (t_sum T)). unfold create_records.
    pose (Inv := fun (i : nat) (g : fs) => forall k, (k < length (rt_fields rt))%nat -> frec (if (k <? i)%nat then T2 else T) g k).
    destruct (each_field_ok (create_field e bf rt false (zlen gs) gs) Inv (length (rt_fields rt))) with (m := length (rt_fields rt)) (k := 0%nat) (st := f)
      as (f' & E & I1); auto.
    - intros i g Hi I1. destruct (the_kind i Hi) as (fd & nm & Hk & F).
      assert (Hfi : frec T g i) by (specialize (I1 i Hi); rewrite Nat.ltb_irrefl in I1; exact I1).
      destruct (append_field_ok T g gs i fd nm Hk F Hfi Hlay HN) as (g' & E & Fr & R).
      exists g'. split; [exact E|]. intros k Hk2. destruct (Nat.eq_dec k i) as [->|Hne2].
      { replace (i <? S i)%nat with true by (symmetry; apply Nat.ltb_lt; lia). exact R. }
      assert (Hsame : (k <? S i)%nat = (k <? i)%nat).
      { destruct (Nat.ltb_spec k i), (Nat.ltb_spec k (S i)); auto; lia. }
      rewrite Hsame. eapply frec_other; [exact Hne2|exact Hk|apply F|exact Hfi|exact Fr|apply I1; auto].
    - exists f'. split; [exact E|]. intros k Hk. specialize (I1 k Hk).
      replace (k <? length (rt_fields rt))%nat with true in I1 by (symmetry; apply Nat.ltb_lt; auto). exact I1.
  Qed.

  (* ----------------------------------------------------------- histories *)
  Lemma rec_step T f op : rec_inv T f -> lens T -> rop_ok rt (t_sizes T) op ->
    exists x f' T', rstep e bf rt f op = Ret (x, f') /\ rspec (e_me e) rt T op x T' /\ rec_inv T' f' /\ lens T' /\
      t_sizes T' = rsizes_after (t_sizes T) op.
  Proof.
    intros I HL Hok. destruct op as [o n buf um|o n buf um|gs]; cbn [rstep].
    - destruct Hok as (Ho & Hc & recs & Hr). destruct (write_records_ok T f o n buf um recs I Ho Hc Hr) as (f' & um' & E & R).
      rewrite E. cbn [bind]. destruct (o + n <=? t_size T) eqn:Er.
      + destruct R as [R1 R2]. eexists _, f', _. split; [reflexivity|]. split; [apply rs_write; eauto; lia|]. split; [auto|]. split; [|auto].
        intros r v Hv. cbn [with_rows t_row] in Hv. destruct ((o <=? r) && (r <? o + zlen recs)); [|eapply HL; eauto].
        apply (proj2 Hr) in Hv. apply load_length in Hv. auto.
      + destruct R as [R1 ->]. eexists _, f', _. split; [reflexivity|]. split; [apply rs_write_range; lia|]. split; auto.
    - destruct Hok as (Ho & Hc & Hm). destruct (read_records_ok T f o n buf um I HL Ho Hc Hm) as (rc & f' & um' & E & R1 & R2).
      rewrite E. cbn [bind]. exists (rc, Some um'), f', T. auto 6.
    - destruct Hok as [H1 H2]. destruct (append_records_ok T f gs I H1 H2) as (f' & E & R). rewrite E. cbn [bind].
      eexists _, f', _. split; [reflexivity|]. split; [apply rs_append|]. split; auto.
  Qed.
  Lemma rec_run : forall os T f, rec_inv T f -> lens T -> rops_ok rt (t_sizes T) os ->
    exists xs f' T', rrun e bf rt f os = Ret (xs, f') /\ rspecs (e_me e) rt T os xs T' /\ rec_inv T' f'.
  Proof.
    induction os as [|op os IH]; intros T f I HL Hok.
    - exists [], f, T. split; [reflexivity|]. split; [constructor|auto].
    - destruct Hok as [H1 H2]. destruct (rec_step T f op I HL H1) as (x & f1 & T1 & E & S & I1 & L1 & Z1).
      destruct (IH T1 f1 I1 L1) as (xs & f2 & T2 & E2 & S2 & I2); [rewrite Z1; exact H2|].
      exists (x :: xs), f2, T2. cbn [rrun]. rewrite E. cbn [bind]. rewrite E2. cbn [bind]. split; [reflexivity|]. split; [|auto].
      econstructor; eauto.
  Qed.
End Rec.
