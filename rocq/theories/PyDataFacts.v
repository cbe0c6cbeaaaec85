(* Proofs about Dataset. *)
From Coq.Strings Require Import Byte String.
From Coq Require Import List ZArith Lia Bool ZifyBool ZifyNat.
From Verif Require Import Base BaseFacts Dtype Cast Array FS Fmt Attr Block File Record Split Spec AttrSpec OpenSpec HistSpec FileSpec RecSpec Py PySpec PyData PyDataSpec
  DtypeFacts ArrayFacts SeekFacts ConvFacts WriteFacts ReadFacts IOFacts OpenFacts HistFacts FrameFacts RecFacts RecIOFacts RecNewFacts MiscFacts PyFacts.
Import ListNotations.
Open Scope Z_scope.
Local Open Scope out_scope.
Ltac Zify.zify_post_hook ::= Z.div_mod_to_equations.

(* ------------------------------------------------------------------ spelling *)
Lemma eqb_refl (x : byte) : Byte.eqb x x = true.
Proof. destruct x; reflexivity. Qed.
Lemma eqb_true (x y : byte) : Byte.eqb x y = true -> x = y.
Proof. apply Byte.byte_dec_bl. Qed.

Lemma norm_len me d : (length (dtype_normalize me d) <= 7)%nat.
Proof.
  unfold dtype_normalize. destruct d as [|x d]; [cbn; lia|]. destruct (is_order_char x).
  - pose proof (firstn_le_length 7 (x :: d)). destruct (firstn 7 (x :: d)) as [|y r] eqn:E; [cbn; lia|].
    rewrite <- E in *. assert (length (firstn 7 (x :: d)) <= 7)%nat by apply firstn_le_length. rewrite E in *.
    destruct (Byte.eqb y "=" || Byte.eqb y "|"); cbn [length] in *; lia.
  - pose proof (firstn_le_length 7 ("="%byte :: firstn 7 (x :: d))) as H. destruct (firstn 7 ("="%byte :: firstn 7 (x :: d))) as [|y r]; [cbn; lia|].
    destruct (Byte.eqb y "=" || Byte.eqb y "|"); cbn [length] in *; lia.
Qed.
Lemma numpy_spells me d : numpy_type me d -> exists s, np_str (dtype_normalize me d) = Some s /\
  dtype_normalize me s = dtype_normalize me d /\ (length s < 8)%nat.
Proof.
  intros (c & k & w & E & Hk & Hc). pose proof (norm_len me d) as Hl. pose proof (normalize_idem me me d) as Hi. rewrite E in *. cbn [np_str].
  assert (Hbar : forall r, (length r <= 6)%nat -> dtype_normalize me ("|"%byte :: r) = machine_char me :: r).
  { intros r Hr. unfold dtype_normalize. change (is_order_char "|") with true. cbv iota. change (firstn 7 ("|"%byte :: r)) with ("|"%byte :: firstn 6 r).
    change (Byte.eqb "|" "=" || Byte.eqb "|" "|") with true. cbv iota. rewrite firstn_all2 by lia. reflexivity. }
  destruct (Byte.eqb k "S") eqn:Ek.
  - apply eqb_true in Ek. subst k. eexists. split; [reflexivity|]. split; [|cbn [length] in *; lia].
    destruct Hc as [->|[Hc _]]; [|congruence]. apply Hbar. cbn [length] in *. lia.
  - assert (Hin : In w (np_width k)) by (destruct Hk as [->|Hk]; [discriminate|exact Hk]).
    replace (existsb (bytes_eqb w) (np_width k)) with true.
    2:{ symmetry. apply existsb_exists. exists w. split; [exact Hin|apply bytes_eqb_refl]. }
    destruct (bytes_eqb w (lit "1")) eqn:Ew.
    + apply bytes_eqb_eq in Ew. eexists. split; [reflexivity|]. split; [|cbn [length] in *; lia].
      destruct Hc as [->|[_ Hc]]; [|congruence]. apply Hbar. cbn [length] in *. lia.
    + eexists. split; [reflexivity|]. split; [exact Hi|cbn [length] in *; lia].
Qed.

(* ------------------------------------------------------------------ types that differ in spelling *)
Lemma same_fields me rt rt' k fd' : same_type me rt rt' -> nth_error (rt_fields rt') k = Some fd' ->
  exists fd, nth_error (rt_fields rt) k = Some fd /\ rf_name fd' = rf_name fd /\ rf_nmemb fd' = rf_nmemb fd /\ rf_offset fd' = rf_offset fd /\
    rf_elsize fd' = rf_elsize fd /\ dtype_normalize me (rf_dtype fd') = dtype_normalize me (rf_dtype fd).
Proof.
  intros (_ & Hl & H) Hk. destruct (nth_error (rt_fields rt) k) as [fd|] eqn:E.
  - destruct (H k fd E) as (fd2 & E2 & R). rewrite Hk in E2. injection E2 as <-. exists fd. auto.
  - apply nth_error_None in E. assert (k < length (rt_fields rt'))%nat by (apply nth_error_Some; congruence). lia.
Qed.
Lemma same_map me rt rt' : same_type me rt rt' ->
  map (fun fd => rf_elsize fd * rf_nmemb fd) (rt_fields rt') = map (fun fd => rf_elsize fd * rf_nmemb fd) (rt_fields rt).
Proof.
  intros S. apply nth_error_ext_eq; [rewrite !map_length; apply S|]. intros j v Hj. rewrite nth_error_map in *.
  destruct (nth_error (rt_fields rt') j) as [fd'|] eqn:E; [|discriminate]. destruct (same_fields _ _ _ _ _ S E) as (fd & E2 & _ & Hn & _ & He & _).
  rewrite E2. cbn in *. rewrite <- Hn, <- He. exact Hj.
Qed.
Lemma same_packed me rt rt' : same_type me rt rt' -> packed rt -> packed rt'.
Proof.
  intros S []. pose proof (same_map _ _ _ S) as Hm. constructor.
  - rewrite Hm, (proj1 S). exact pk_total.
  - apply Forall_forall. intros fd' Hin. apply In_nth_error in Hin. destruct Hin as (k & Hk). destruct (same_fields _ _ _ _ _ S Hk) as (fd & E2 & _ & Hn & _ & He & _).
    rewrite Hn, He. rewrite Forall_forall in pk_nonneg. apply pk_nonneg. eapply nth_error_In; eauto.
  - intros k fd' Hk. destruct (same_fields _ _ _ _ _ S Hk) as (fd & E2 & _ & _ & Ho & _). rewrite Ho, (pk_offset _ _ E2), <- !firstn_map, Hm. reflexivity.
Qed.
Lemma same_itemsize me d d' : dtype_normalize me d' = dtype_normalize me d -> itemsize me d' = itemsize me d.
Proof. intros H. unfold itemsize. rewrite H. reflexivity. Qed.
Lemma same_kind e bf rt rt' : same_type (e_me e) rt rt' -> (forall fd, In fd (rt_fields rt') -> (length (rf_dtype fd) < 8)%nat) ->
  rec_kind e bf rt -> rec_kind e bf rt'.
Proof.
  intros S Hlen []. constructor.
  - eapply same_packed; eauto.
  - intros E. apply rk_some. pose proof (proj1 (proj2 S)) as L. rewrite E in L. destruct (rt_fields rt) as [|h r]; [reflexivity|discriminate L].
  - intros k fd' Hk. destruct (same_fields _ _ _ _ _ S Hk) as (fd & E2 & H1 & H2 & H3 & H4 & H5). destruct (rk_field k fd E2) as (nm & []).
    exists nm. pose proof (same_itemsize _ _ _ H5) as Hi. unfold fwidth in *. constructor; try congruence; unfold fwidth; try rewrite H5; try rewrite Hi; try rewrite H4; try rewrite H2; auto.
    apply Hlen. eapply nth_error_In; eauto.
  - intros i j fi fj ni nj Hij Hi Hj Hni Hnj. destruct (same_fields _ _ _ _ _ S Hi) as (gi & Gi & Ni & _). destruct (same_fields _ _ _ _ _ S Hj) as (gj & Gj & Nj & _).
    apply (rk_apart i j gi gj ni nj); auto; congruence.
Qed.
Lemma same_inv e bf rt rt' T f : same_type (e_me e) rt rt' -> rec_inv e bf rt T f -> rec_inv e bf rt' T f.
Proof.
  intros S I k Hk fd' nm Hk' Hnm. destruct (same_fields _ _ _ _ _ S Hk') as (fd & E2 & H1 & H2 & H3 & H4 & H5).
  assert (Hkl : (k < length (rt_fields rt))%nat) by (apply nth_error_Some; congruence).
  destruct (I k Hkl fd nm E2 ltac:(congruence)) as (t & C & Tt1 & Tt2). exists t.
  unfold fclosed, fdt, fwidth in *. rewrite H2, H4, H5. split; [exact C|]. split; [exact Tt1|]. intros r. rewrite Tt2. unfold field_of, fwidth. rewrite H2, H3, H4. reflexivity.
Qed.

(* ------------------------------------------------------------------ opening *)
Section Open.
  Variables (e : env) (bf : bytes) (rt : rtype).
  Hypothesis K : rec_kind e bf rt.
  Hypothesis HN : forall fd, In fd (rt_fields rt) -> numpy_type (e_me e) (rf_dtype fd).
  Hypothesis H31 : rt_itemsize rt < 2 ^ 31.

  Lemma open_field T f k fd nm : rec_inv e bf rt T f -> nth_error (rt_fields rt) k = Some fd -> rf_name fd = Some nm ->
    exists b, big_file_open_block e f bf nm = Ret (Some b) /\ b_size b = t_size T /\ b_dtype b = dtype_normalize (e_me e) (rf_dtype fd) /\ b_nmemb b = rf_nmemb fd.
  Proof.
    intros I Hk Hnm. assert (Hkl : (k < length (rt_fields rt))%nat) by (apply nth_error_Some; congruence).
    destruct (I k Hkl fd nm Hk Hnm) as (t & C & Tt). destruct (rk_field _ _ _ K k fd Hk) as (nm' & F).
    assert (nm' = nm) by (pose proof (fk_name _ _ _ _ F); congruence). subst nm'.
    destruct (closed_open _ _ _ _ _ _ _ (fk_kind e bf fd nm F) C) as (b & Eo & Iv). exists b.
    destruct (hinv_size _ _ _ _ _ _ _ _ Iv) as (A1 & A2 & A3 & _). split; [exact Eo|]. rewrite A1. split; [|auto].
    unfold t_size. rewrite (proj1 Tt). reflexivity.
  Qed.
  (* the description of a column the loop collects *)
  Definition col_of (fd : rfield) : bytes * bytes * Z :=
    (match rf_name fd with Some nm => nm | None => [] end,
     match np_str (dtype_normalize (e_me e) (rf_dtype fd)) with Some s => s | None => [] end, rf_nmemb fd).
  Lemma open_cols T f : rec_inv e bf rt T f -> forall l pre acc size, rt_fields rt = pre ++ l -> (size = None \/ size = Some (t_size T)) ->
    (l <> [] \/ size = Some (t_size T)) ->
    open_columns e bf f (map (fun fd => match rf_name fd with Some nm => nm | None => [] end) l) size acc =
      Ret (PyRet (Some (t_size T), rev acc ++ map col_of l)).
  Proof.
    intros I. induction l as [|fd l IH]; intros pre acc size E Hs Hl.
    - destruct Hl as [Hl| ->]; [congruence|]. cbn. rewrite app_nil_r. reflexivity.
    - assert (Hk : nth_error (rt_fields rt) (length pre) = Some fd) by (rewrite E, nth_error_app2, Nat.sub_diag by lia; reflexivity).
      destruct (rk_field _ _ _ K _ fd Hk) as (nm & F). pose proof (fk_name _ _ _ _ F) as Hnm.
      destruct (open_field T f _ fd nm I Hk Hnm) as (b & Eo & Hsz & Hdt & Hnmb).
      cbn [map open_columns]. rewrite Hnm, Eo. cbn [bind].
      replace (match size with Some s => negb (b_size b =? s) | None => false end) with false by (destruct Hs as [->| ->]; lia).
      destruct (numpy_spells _ _ (HN fd (nth_error_In _ _ Hk))) as (s & Es & _). rewrite Hdt, Es.
      rewrite (IH (pre ++ [fd])); [|rewrite <- app_assoc; exact E|right|right].
      + cbn [rev]. rewrite <- app_assoc. cbn [app]. unfold col_of at 2. rewrite Hnm, Es, Hnmb. reflexivity.
      + destruct Hs as [->| ->]; [rewrite Hsz|]; reflexivity.
      + destruct Hs as [->| ->]; [rewrite Hsz|]; reflexivity.
  Qed.
  Definition raw_of (c : bytes * bytes * Z) : rfield := let '(nm, d, n) := c in mkField (Some (strdup nm)) (firstn 8 d) n 0 0.
  Lemma set_loop : forall cols fl z, set_fields (mkRtype fl z) (zlen fl) cols = Ret (mkRtype (fl ++ map raw_of cols) z).
  Proof.
    induction cols as [|[[nm d] n] cols IH]; intros fl z; [cbn; rewrite app_nil_r; reflexivity|].
    cbn [set_fields]. unfold rtype_set. pose proof (zlen_nonneg fl). replace (zlen fl <? 0) with false by lia. cbn [rt_fields rt_itemsize].
    rewrite Z.leb_refl. replace (Z.to_nat (zlen fl + 1) - length fl)%nat with 1%nat by (unfold zlen; lia). replace (Z.to_nat (zlen fl)) with (length fl) by (unfold zlen; lia).
    cbn [repeat]. rewrite app_nth2, Nat.sub_diag by lia. cbn [nth null_field rf_offset rf_elsize bind].
    assert (U : forall (l : list rfield) x y, upd (l ++ [x]) (length l) y = l ++ [y]).
    { induction l as [|h l IHl]; intros x y; [reflexivity|]. cbn. rewrite IHl. reflexivity. }
    rewrite U. replace (zlen fl + 1) with (zlen (fl ++ [mkField (Some (strdup nm)) (firstn 8 d) n 0 0])) by (unfold zlen; rewrite app_length; cbn; lia).
    rewrite IH, <- app_assoc. reflexivity.
  Qed.
  Lemma no_dup : has_dup (field_names rt) = false.
  Proof.
    unfold field_names. assert (H : forall l pre, rt_fields rt = pre ++ l ->
      has_dup (map (fun fd => match rf_name fd with Some nm => nm | None => [] end) l) = false); [|apply (H _ []); reflexivity].
    induction l as [|fd l IH]; intros pre E; [reflexivity|]. cbn [map has_dup]. rewrite (IH (pre ++ [fd])) by (rewrite <- app_assoc; exact E).
    rewrite orb_false_r. destruct (existsb _ _) eqn:X; [|reflexivity]. exfalso. apply existsb_exists in X. destruct X as (y & Hy & Ey).
    apply bytes_eqb_eq in Ey. apply in_map_iff in Hy. destruct Hy as (fd2 & Hy & Hin). apply In_nth_error in Hin. destruct Hin as (j & Hj).
    assert (Hk : nth_error (rt_fields rt) (length pre) = Some fd) by (rewrite E, nth_error_app2, Nat.sub_diag by lia; reflexivity).
    assert (Hk2 : nth_error (rt_fields rt) (length pre + S j) = Some fd2).
    { rewrite E, nth_error_app2 by lia. replace (length pre + S j - length pre)%nat with (S j) by lia. exact Hj. }
    destruct (rk_field _ _ _ K _ fd Hk) as (nm & F). destruct (rk_field _ _ _ K _ fd2 Hk2) as (nm2 & F2).
    pose proof (fk_name _ _ _ _ F) as N1. pose proof (fk_name _ _ _ _ F2) as N2. rewrite N1, N2 in *. assert (Hn2 : nm2 = nm) by congruence. rewrite Hn2 in N2.
    refine (rk_apart _ _ _ K (length pre) (length pre + S j) fd fd2 nm nm _ Hk Hk2 N1 N2 _); [lia|exists []; rewrite app_nil_r; reflexivity].
  Qed.

  Lemma dataset_opens : exists rt', same_type (e_me e) rt rt' /\ rec_kind e bf rt' /\ forall T f, rec_inv e bf rt T f ->
    py_dataset e bf f (field_names rt) = Ret (PyRet (mkDs rt' (t_size T))).
  Proof.
    set (rt0 := mkRtype (map raw_of (map col_of (rt_fields rt))) 0).
    assert (Hf : forall k fd, nth_error (rt_fields rt) k = Some fd -> exists nm s, rf_name fd = Some nm /\ nth_error (rt_fields rt0) k = Some (mkField (Some nm) s (rf_nmemb fd) 0 0) /\
      dtype_normalize (e_me e) s = dtype_normalize (e_me e) (rf_dtype fd) /\ (length s < 8)%nat /\ field_kind e bf fd nm).
    { intros k fd Hk. destruct (rk_field _ _ _ K _ fd Hk) as (nm & F). destruct (numpy_spells _ _ (HN fd (nth_error_In _ _ Hk))) as (s & Es & En & El).
      exists nm, s. pose proof (fk_name _ _ _ _ F) as Hnm. split; [exact Hnm|]. split; [|auto].
      cbn [rt0 rt_fields]. rewrite !nth_error_map, Hk. cbn [option_map]. unfold col_of, raw_of. rewrite Hnm, Es.
      destruct (fk_block _ _ _ _ F) as (_ & Hbl & _). pose proof (join_len bf nm). unfold strdup. rewrite firstn_all2 by lia. rewrite firstn_all2 by lia. reflexivity. }
    assert (Hw : map (width (e_me e)) (rt_fields rt0) = map (fun fd => rf_elsize fd * rf_nmemb fd) (rt_fields rt)).
    { apply nth_error_ext_eq; [cbn [rt0 rt_fields]; rewrite !map_length; reflexivity|]. intros j v Hj. rewrite nth_error_map in Hj |- *.
      destruct (nth_error (rt_fields rt) j) as [fd|] eqn:E.
      - destruct (Hf j fd E) as (nm & s & _ & Hk & Hs & _ & F). rewrite Hk in Hj. cbn in Hj |- *. rewrite <- Hj. unfold width. cbn [rf_dtype rf_nmemb].
        rewrite (fk_elsize _ _ _ _ F), (same_itemsize _ _ _ Hs). reflexivity.
      - apply nth_error_None in E. cbn [rt0 rt_fields] in Hj. rewrite !nth_error_map in Hj. apply nth_error_None in E. rewrite E in Hj. discriminate. }
    assert (Hl0 : length (rt_fields rt0) = length (rt_fields rt)) by (cbn [rt0 rt_fields]; rewrite !map_length; reflexivity).
    assert (Hok : Forall (field_ok (e_me e)) (rt_fields rt0)).
    { apply Forall_forall. intros x Hx. apply In_nth_error in Hx. destruct Hx as (k & Hk).
      assert (Hkl : (k < length (rt_fields rt))%nat) by (rewrite <- Hl0; apply nth_error_Some; congruence).
      destruct (the_kind e bf rt K k Hkl) as (fd & nm0 & E & F0).
      destruct (Hf k fd E) as (nm & s & _ & Hk2 & Hs & Hl & F). rewrite Hk in Hk2. injection Hk2 as ->.
      split; [discriminate|]. cbn [rf_dtype rf_nmemb]. rewrite (same_itemsize _ _ _ Hs). destruct F. split; [auto|]. lia. }
    destruct (complete_spec (e_me e) rt0 Hok) as (rt' & Ec & Hi & Hl & Hc).
    { rewrite Hw. rewrite <- (pk_total _ (rk_packed _ _ _ K)). exact H31. }
    exists rt'. rewrite Hw, <- (pk_total _ (rk_packed _ _ _ K)) in Hi.
    assert (S : same_type (e_me e) rt rt').
    { split; [exact Hi|]. split; [congruence|]. intros k fd Hk. destruct (Hf k fd Hk) as (nm & s & Hnm & Hk2 & Hs & _ & F).
      destruct (Hc k _ Hk2) as (fd' & Hk' & C1 & C2 & C3 & C4 & C5). cbn [rf_name rf_dtype rf_nmemb] in *. exists fd'. split; [exact Hk'|].
      split; [congruence|]. split; [exact C3|]. split.
      { rewrite C5, (pk_offset _ (rk_packed _ _ _ K) k fd Hk), <- !firstn_map, Hw. reflexivity. }
      split; [rewrite C4, (fk_elsize _ _ _ _ F); apply same_itemsize; exact Hs|]. rewrite C2. exact Hs. }
    split; [exact S|]. split.
    2:{ intros T f I. unfold py_dataset, py_bind. unfold field_names at 1. rewrite (open_cols T f I _ [] [] None); [|reflexivity|auto|left; apply K].
        cbn [bind rev app]. rewrite no_dup. change (rtype_clear (mkRtype [] 0)) with (mkRtype [] 0).
        pose proof (set_loop (map col_of (rt_fields rt)) [] 0) as Es. change (zlen (@nil rfield)) with 0 in Es. rewrite Es. cbn [bind app]. fold rt0. rewrite Ec. reflexivity. }
    eapply same_kind; [exact S| |exact K].
    intros fd' Hin. apply In_nth_error in Hin. destruct Hin as (k & Hk). assert (Hkl : (k < length (rt_fields rt))%nat) by (rewrite <- Hl0, <- Hl; apply nth_error_Some; congruence).
    destruct (the_kind e bf rt K k Hkl) as (fd & nm0 & E & F0). destruct (Hf k fd E) as (nm & s & _ & Hk2 & Hs & Hlen & F).
    destruct (Hc k _ Hk2) as (fd2 & Hk' & _ & C2 & _). rewrite Hk in Hk'. injection Hk' as <-. cbn [rf_dtype] in C2. rewrite C2. exact Hlen.
  Qed.
End Open.

(* ------------------------------------------------------------------ reading nothing *)
Lemma read_zero e base dt nmemb t f b o : kind_ok e base dt nmemb (itemsize (e_me e) dt * nmemb) -> 0 < itemsize (e_me e) dt -> 0 < nmemb ->
  hinv e base dt nmemb (itemsize (e_me e) dt * nmemb) t f b -> 0 <= o <= t_size t ->
  exists p, big_block_seek b (mkPtr 0 0 0) o = Ret (0, p) /\
    forall a m, a_size a = 0 -> exists p', big_block_read e f b p a m = Ret (0, p', m).
Proof.
  intros [] Hi Hnm I Ho. set (isz := itemsize (e_me e) dt) in *. set (w := isz * nmemb) in *. assert (Hw : 0 < w) by (unfold w; nia).
  destruct (hinv_size _ _ _ _ _ _ _ _ I) as (Es & Ed & En & HL). pose proof (hl_small _ _ HL) as Hsm. unfold t_size in *.
  destruct (seek_nonneg b (t_sizes t) (mkPtr 0 0 0) o HL Ho) as (p & E & P & _). exists p. split; [exact E|]. intros a m Ha.
  unfold big_block_read, felsize, row_nmemb, chunk_rows. rewrite Ed, En. fold isz. replace (nmemb =? 0) with false by lia. fold w.
  replace (2 ^ 31 <=? Z.abs w) with false by lia. replace (w =? 0) with false by lia.
  unfold felsize, row_nmemb. rewrite Ed, En. fold isz. replace (nmemb =? 0) with false by lia. fold w.
  unfold big_array_init at 1. change (32 <? zlen [e_chunk e / u64 w; nmemb]) with false. cbv iota. cbn [bind].
  rewrite (foffset_nth b (t_sizes t)) by (auto; apply P). cbn [or_ub bind]. rewrite Ha. replace (0 / nmemb) with 0 by (rewrite Z.div_0_l; lia).
  rewrite (pa_abs _ _ _ P), Z.add_0_r. replace (s64 o) with o by (unfold s64; lia). replace (u64 o) with o by (unfold u64; lia).
  rewrite (hl_size _ _ HL). replace (zsum (t_sizes t) <? o) with false by lia. cbn [Z.to_nat read_loop]. eexists. reflexivity.
Qed.

Section Steps.
  Variables (e : env) (bf : bytes) (rt : rtype).
  Variable alloc : Z -> Z * mem.
  Hypothesis K : rec_kind e bf rt.
  Hypothesis HA : alloc_ok alloc.
  Notation rinv := (rec_inv e bf rt).
  Notation lens := (lens rt).

  Lemma read_nothing T f o buf um : rinv T f -> 0 <= o <= t_size T -> exists f', read_records e f bf rt o 0 buf um = Ret (0, (f', um)) /\ rinv T f'.
  Proof.
    intros I Ho. unfold read_records.
    pose (Inv := fun (i : nat) (st : fs * mem) => rinv T (fst st) /\ snd st = um).
    destruct (each_field_ok (read_field e bf rt o 0 buf) Inv (length (rt_fields rt))) with (m := length (rt_fields rt)) (k := 0%nat) (st := (f, um))
      as ([f' um'] & E & I1 & I2); auto.
    2:{ split; auto. }
    2:{ cbn in I2. subst um'. exists f'. split; [exact E|exact I1]. }
    intros i [g m] Hi (I1 & I2). cbn [fst snd] in *. subst m. destruct (the_kind e bf rt K i Hi) as (fd & nm & Hk & F).
    destruct (I1 i Hi fd nm Hk (fk_name _ _ _ _ F)) as (t & C & Tt). pose proof (fk_kind e bf fd nm F) as Kk. destruct (fdt_ok e bf fd nm F) as [Hdt His].
    destruct (closed_open _ _ _ _ _ _ _ Kk C) as (b & Eo & Iv). unfold fwidth in Iv, Kk. rewrite <- His in Iv, Kk.
    assert (Hel : 0 < itemsize (e_me e) (fdt e fd)) by (rewrite His, (fk_elsize _ _ _ _ F); apply F). assert (Hnmb : 0 < rf_nmemb fd) by apply F.
    destruct (read_zero e _ _ _ t g b o Kk Hel Hnmb Iv) as (p & Es & Er); [rewrite (tsize_tab _ _ _ Tt); exact Ho|].
    destruct (close_closed _ _ _ _ _ _ _ _ Iv) as (f2 & Ec & C2).
    unfold read_field. rewrite (view_ret e bf rt i fd nm 0 buf Hk F). cbn [bind]. rewrite (the_field_nth _ _ _ Hk). cbn [bind].
    rewrite (fk_name _ _ _ _ F). cbn [or_ub bind]. unfold big_file_open_block. change (path_join bf nm) with (fbase bf nm). rewrite Eo. cbn [bind]. rewrite Es. cbn [bind].
    change (negb (0 =? 0)) with false. cbv iota. match goal with |- context [big_block_read e g b p ?a um] => destruct (Er a um ltac:(cbn; lia)) as (p' & Ep) end.
    rewrite Ep. cbn [bind]. rewrite Ec. cbn [bind]. eexists. split; [reflexivity|]. split; [|reflexivity]. cbn [fst].
    pose proof (close_frames _ _ _ _ _ Ec) as Fr. rewrite (hv_base _ _ _ _ _ _ _ _ Iv) in Fr.
    intros k Hk2. destruct (Nat.eq_dec k i) as [->|Hne].
    - intros fd0 nm0 Hk0 Hn0. rewrite Hk in Hk0. injection Hk0 as <-. rewrite (fk_name _ _ _ _ F) in Hn0. injection Hn0 as <-.
      exists t. split; [|exact Tt]. unfold fclosed, fwidth. rewrite <- His. exact C2.
    - eapply (frec_other e bf rt K T T g f2 k i fd nm); auto. apply F.
  Qed.

  Definition part (L : list bytes) (lo n : Z) : list bytes := firstn (Z.to_nat n) (skipn (Z.to_nat lo) L).
  Lemma part_nth L lo n j v : 0 <= lo -> nth_error (part L lo n) j = Some v -> nth_error L (Z.to_nat lo + j) = Some v.
  Proof.
    intros Hlo H. unfold part in H. assert (Hj : (j < Z.to_nat n)%nat).
    { assert (j < length (firstn (Z.to_nat n) (skipn (Z.to_nat lo) L)))%nat by (apply nth_error_Some; congruence). rewrite firstn_length in *. lia. }
    rewrite nth_error_firstn' in H by exact Hj. rewrite nth_error_skipn' in H. exact H.
  Qed.
  Lemma part_len L lo n : 0 <= lo -> 0 <= n -> lo + n <= zlen L -> zlen (part L lo n) = n.
  Proof. intros. unfold part, zlen in *. rewrite firstn_length, skipn_length. lia. Qed.

  Lemma read_part T f L lo n : rinv T f -> lens T -> written T L -> size_ok rt (zlen L) -> 0 <= lo -> 0 <= n -> lo + n <= zlen L ->
    let '(p, m0) := alloc (n * rt_itemsize rt) in
    exists f' m, read_records e f bf rt lo n p m0 = Ret (0, (f', m)) /\ rinv T f' /\ recs_at rt m p n (part L lo n).
  Proof.
    intros I HL [W1 W2] [S1 S2] Hlo Hn Hle. destruct (alloc (n * rt_itemsize rt)) as [p m0] eqn:Ea.
    destruct (Z.eq_dec n 0) as [->|Hn0].
    - destruct (read_nothing T f lo p m0 I) as (f' & E & I'); [lia|]. exists f', m0. split; [exact E|]. split; [exact I'|].
      split; [reflexivity|]. intros j v H. destruct j; discriminate H.
    - assert (Hc : counts_ok rt n).
      { split; [lia|]. intros fd Hin. specialize (S2 fd Hin). apply In_nth_error in Hin. destruct Hin as (k & Hk). destruct (rk_field _ _ _ K k fd Hk) as (nm & F).
        pose proof (fk_nmemb _ _ _ _ F). nia. }
      assert (Hm : forall x, p <= x < p + n * rt_itemsize rt -> m0 x <> None).
      { intros x Hx. pose proof (HA (n * rt_itemsize rt) (x - p) ltac:(lia)) as H. rewrite Ea in H. cbn [fst snd] in H. replace (p + (x - p)) with x in H by lia. exact H. }
      destruct (read_records_ok e bf rt K T f lo n p m0 I HL ltac:(lia) Hc Hm) as (rc & f' & m & E & I' & Sp).
      inversion Sp as [| |o1 n1 b1 m1 rc1 um1 Q1 Q2 Q3|]; subst. destruct (Q2 (part L lo n)) as (-> & R & _).
      + lia.
      + apply part_len; lia.
      + intros j v Hj. left. pose proof (part_nth L lo n j v Hlo Hj) as H. apply W2 in H. replace (lo + Z.of_nat j) with (Z.of_nat (Z.to_nat lo + j)) by lia. exact H.
      + exists f', m. auto.
  Qed.

  Record dinv (T : table) (L : list bytes) (nf : Z) (f : fs) (ds : dset) : Prop := {
    dv_rt : ds_rt ds = rt;
    dv_size : ds_size ds = zlen L;
    dv_rec : rinv T f;
    dv_lens : lens T;
    dv_written : written T L;
    dv_sizes : size_ok rt (zlen L);
    dv_layout : layout_ok (t_sizes T);
    dv_files : zlen (t_sizes T) = nf
  }.
  Lemma dinv_fs T L nf f ds f' : dinv T L nf f ds -> rinv T f' -> dinv T L nf f' ds.
  Proof. intros [] H. constructor; auto. Qed.

  Lemma slice_span start stop step n : 0 <= n -> step_of (ISlice start stop step) = 1 ->
    slice_indices start stop step n = Some (bound n 0 start, bound n n stop, 1).
  Proof. intros Hn H. destruct step as [s|]; [cbn in H; subst s; apply slice_bounds1; auto|apply slice_bounds; auto]. Qed.
  Lemma slice_steps start stop step n : step_of (ISlice start stop step) <> 1 -> exists s, step = Some s /\ s <> 1 /\ step_of (ISlice start stop step) = s /\
    (if s =? 0 then slice_indices start stop step n = None else exists lo hi, slice_indices start stop step n = Some (lo, hi, s)).
  Proof.
    intros H. destruct step as [s|]; [|exfalso; apply H; reflexivity]. exists s. cbn in *. split; [auto|]. split; [auto|]. split; [auto|].
    unfold slice_indices. destruct (s =? 0) eqn:E; [reflexivity|]. eexists _, _. reflexivity.
  Qed.

  Lemma getslice_ok T L nf f ds start stop step : dinv T L nf f ds -> step_of (ISlice start stop step) = 1 ->
    let lo := bound (zlen L) 0 start in let hi := bound (zlen L) (zlen L) stop in
    if hi <? lo then ds_getslice e bf alloc f ds start stop step = Ret (PyRaise ValueError, f)
    else exists f' p m, ds_getslice e bf alloc f ds start stop step = Ret (PyRet (p, hi - lo, m), f') /\ dinv T L nf f' ds /\ recs_at rt m p (hi - lo) (part L lo (hi - lo)).
  Proof.
    intros D Hst lo hi. pose proof D as []. pose proof (zlen_nonneg L) as Hz. pose proof (bound_range (zlen L) 0 start Hz ltac:(lia)) as B1. pose proof (bound_range (zlen L) (zlen L) stop Hz ltac:(lia)) as B2.
    fold lo in B1. fold hi in B2. unfold ds_getslice. rewrite dv_size0, (slice_span start stop step _ Hz Hst). fold lo hi. change (negb (1 =? 1)) with false. cbv iota.
    destruct (hi <? lo) eqn:E.
    - replace (hi - lo <? 0) with true by lia. reflexivity.
    - replace (hi - lo <? 0) with false by lia. pose proof (read_part T f L lo (hi - lo) dv_rec0 dv_lens0 dv_written0 dv_sizes0 ltac:(lia) ltac:(lia) ltac:(lia)) as R.
      rewrite dv_rt0. destruct (alloc ((hi - lo) * rt_itemsize rt)) as [p m0]. destruct R as (f' & m & Er & I' & Ra). rewrite Er. cbn [bind]. change (0 =? 0) with true. cbv iota.
      exists f', p, m. split; [reflexivity|]. split; [eapply dinv_fs; eauto|exact Ra].
  Qed.
  Lemma part_slice L start stop : part L (bound (zlen L) 0 start) (bound (zlen L) (zlen L) stop - bound (zlen L) 0 start) = list_slice L start stop.
  Proof. reflexivity. Qed.

  Lemma get_step T L nf f ds i : dinv T L nf f ds -> exists x f', dstep e bf alloc (f, ds) (DGet i) = Ret (x, (f', ds)) /\
    dspec (e_me e) rt L (DGet i) x L /\ dinv T L nf f' ds.
  Proof.
    intros D. pose proof (zlen_nonneg L) as Hz. cbn [dstep]. destruct i as [start stop step| |i]; cbn [ds_getitem].
    - destruct (Z.eq_dec (step_of (ISlice start stop step)) 1) as [Hst|Hst].
      + pose proof (getslice_ok T L nf f ds start stop step D Hst) as G. cbv zeta in G. destruct (_ <? _) eqn:E.
        * rewrite G. cbn [bind]. eexists _, f. split; [reflexivity|]. split; [|exact D]. eapply d_back; [exact Hst|reflexivity|lia].
        * destruct G as (f' & p & m & Eg & D' & R). rewrite Eg. cbn [bind]. rewrite part_slice in R. eexists _, f'. split; [reflexivity|]. split; [|exact D'].
          pose proof (proj1 R) as Hl. rewrite <- Hl in *. apply d_slice; [exact Hst|lia|]. exact R.
      + destruct (slice_steps start stop step (ds_size ds) Hst) as (s & -> & Hs & Es & Hx). unfold ds_getslice.
        eexists _, f. split; [|split; [apply d_step; exact Hst|exact D]]. rewrite Es. destruct (s =? 0) eqn:E0; [rewrite Hx; reflexivity|].
        destruct Hx as (lo & hi & ->). replace (negb (s =? 1)) with true by lia. reflexivity.
    - pose proof (getslice_ok T L nf f ds None None None D eq_refl) as G. cbv zeta in G. cbn [bound] in G. replace (zlen L <? 0) with false in G by lia.
      destruct G as (f' & p & m & Eg & D' & R). rewrite Eg. cbn [bind]. replace (zlen L - 0) with (zlen L) in * by lia. eexists _, f'. split; [reflexivity|]. split; [|exact D'].
      apply d_all. unfold part in R. change (Z.to_nat 0) with O in R. cbn [skipn] in R. rewrite firstn_all2 in R by (unfold zlen; lia). exact R.
    - pose proof (getslice_ok T L nf f ds (Some i) (Some (i + 1)) None D eq_refl) as G. cbv zeta in G.
      set (lo := bound (zlen L) 0 (Some i)) in *. set (hi := bound (zlen L) (zlen L) (Some (i + 1))) in *. 
      assert (Elo : lo = Z.min (zlen L) (Z.max 0 (if i <? 0 then i + zlen L else i))) by reflexivity.
      assert (Ehi : hi = Z.min (zlen L) (Z.max 0 (if i + 1 <? 0 then i + 1 + zlen L else i + 1))) by reflexivity.
      destruct (hi <? lo) eqn:E.
      + rewrite G. cbn [bind]. eexists _, f. split; [reflexivity|]. split; [|exact D]. eapply d_back; [reflexivity|reflexivity|]. fold lo hi. lia.
      + destruct G as (f' & p & m & Eg & D' & R). rewrite Eg. cbn [bind]. eexists _, f'. split; [reflexivity|]. split; [|exact D'].
        destruct (0 <? hi - lo) eqn:En.
        * assert (Hi1 : i <> -1) by (intros Hi; destruct (i <? 0) eqn:?, (i + 1 <? 0) eqn:?; lia).
          assert (Hh : hi = lo + 1) by (destruct (i <? 0) eqn:?, (i + 1 <? 0) eqn:?; lia).
          destruct R as [R1 R2]. destruct (part L lo (hi - lo)) as [|v r] eqn:Ep; [cbn in R1; lia|]. specialize (R2 O v eq_refl).
          apply (d_item _ _ _ _ v); [exact Hi1| |replace (p + Z.of_nat 0 * rt_itemsize rt) with p in R2 by lia; exact R2].
          assert (Hlo : 0 <= lo) by lia.
          assert (Hv : nth_error L (Z.to_nat lo + 0) = Some v) by (apply (part_nth L lo (hi - lo)); [exact Hlo|rewrite Ep; reflexivity]).
          rewrite Nat.add_0_r in Hv. unfold list_item. replace ((i <? - zlen L) || (zlen L <=? i)) with false by (destruct (i <? 0) eqn:?, (i + 1 <? 0) eqn:?; lia).
          rewrite <- Hv. f_equal. f_equal. destruct (i <? 0) eqn:?, (i + 1 <? 0) eqn:?; lia.
        * apply d_index.
          -- destruct (Z.eq_dec i (-1)) as [Hi|]; [right; destruct (i <? 0) eqn:?, (i + 1 <? 0) eqn:?; lia|auto].
          -- destruct (Z.eq_dec i (-1)) as [Hi|Hi1]; [auto|right]. unfold list_item.
             replace ((i <? - zlen L) || (zlen L <=? i)) with true by (destruct (i <? 0) eqn:?, (i + 1 <? 0) eqn:?; lia). reflexivity.
  Qed.

  (* ---------------------------------------------------------------- writing *)
  Lemma value_recs v um recs : ra_stride v = rt_itemsize rt -> array_recs rt um v recs -> recs_at rt um (ra_data v) (ra_len v) recs.
  Proof. intros Hs [H1 H2]. split; [exact H1|]. intros j x Hj. rewrite <- Hs at 1. auto. Qed.
  Lemma put_nth L lo recs j : 0 <= lo -> lo + zlen recs <= zlen L ->
    nth_error (put L lo recs) j = if (lo <=? Z.of_nat j) && (Z.of_nat j <? lo + zlen recs) then nth_error recs (Z.to_nat (Z.of_nat j - lo)) else nth_error L j.
  Proof.
    intros H1 H2. unfold put, zlen in *. assert (Hf : length (firstn (Z.to_nat lo) L) = Z.to_nat lo) by (rewrite firstn_length; lia).
    destruct (lo <=? Z.of_nat j) eqn:E1; cbn [andb].
    - rewrite nth_error_app2 by lia. rewrite Hf. destruct (Z.of_nat j <? lo + Z.of_nat (length recs)) eqn:E2.
      + rewrite nth_error_app1 by lia. f_equal. lia.
      + rewrite nth_error_app2 by lia. rewrite nth_error_skipn'. f_equal. lia.
    - rewrite nth_error_app1 by lia. apply nth_error_firstn'. lia.
  Qed.
  Lemma put_len L lo recs : 0 <= lo -> lo + zlen recs <= zlen L -> zlen (put L lo recs) = zlen L.
  Proof. intros H1 H2. unfold put, zlen in *. rewrite !app_length, firstn_length, skipn_length. lia. Qed.

  Lemma write_part T L nf f ds v um recs lo : dinv T L nf f ds -> ra_same v = true -> 0 < ra_len v -> ra_stride v = rt_itemsize rt -> array_recs rt um v recs ->
    0 <= lo -> lo + ra_len v <= t_size T -> size_ok rt (t_size T) ->
    forall ds', ds_rt ds' = rt -> exists f' um', ds_write e bf f ds' lo v um = Ret (PyRet tt, (f', um')) /\ rinv (with_rows T lo recs) f' /\ lens (with_rows T lo recs) /\
      left_by_write (e_me e) rt um um' (ra_data v) (ra_len v).
  Proof.
    intros D Hs Hn Hst Hr Hlo Hle [S1 S2] ds' Hds. pose proof D as []. pose proof (value_recs v um recs Hst Hr) as Ra.
    assert (Hc : counts_ok rt (ra_len v)).
    { split; [lia|]. intros fd Hin. specialize (S2 fd Hin). apply In_nth_error in Hin. destruct Hin as (k & Hk). destruct (rk_field _ _ _ K k fd Hk) as (nm & F).
      pose proof (fk_nmemb _ _ _ _ F). nia. }
    destruct (write_records_ok e bf rt K T f lo (ra_len v) (ra_data v) um recs dv_rec0 ltac:(lia) Hc Ra) as (f' & um' & E & R).
    replace (lo + ra_len v <=? t_size T) with true in * by lia. unfold ds_write. rewrite Hs, Hds. cbn [negb]. rewrite E. cbn [bind]. change (0 =? 0) with true. cbv iota.
    exists f', um'. destruct R as [R1 R2]. split; [reflexivity|]. split; [exact R1|]. split; [|exact R2].
    intros r x Hx. cbn [with_rows t_row] in Hx. destruct ((lo <=? r) && (r <? lo + zlen recs)); [|eapply dv_lens0; eauto].
    apply (proj2 Ra) in Hx. apply load_length in Hx. exact Hx.
  Qed.

  Lemma setslice_ok T L nf f ds start stop step v um : dinv T L nf f ds -> value_ok rt v um -> step_of (ISlice start stop step) = 1 ->
    let lo := bound (zlen L) 0 start in let hi := bound (zlen L) (zlen L) stop in
    (ra_same v = false /\ ds_setslice e bf f ds start stop step v um = Ret (PyRaise AssertionError, (f, um))) \/
    (ra_same v = true /\ ra_len v <> hi - lo /\ ds_setslice e bf f ds start stop step v um = Ret (PyRaise AssertionError, (f, um))) \/
    (ra_same v = true /\ exists f' um' T' recs, ds_setslice e bf f ds start stop step v um = Ret (PyRet tt, (f', um')) /\ array_recs rt um v recs /\ zlen recs = hi - lo /\
       left_by_write (e_me e) rt um um' (ra_data v) (ra_len v) /\ dinv T' (put L lo recs) nf f' ds /\ zlen (put L lo recs) = zlen L).
  Proof.
    intros D (Hn & Hstr & recs & Hr) Hst lo hi. pose proof D as []. pose proof (zlen_nonneg L) as Hz. pose proof (bound_range (zlen L) 0 start Hz ltac:(lia)) as B1. pose proof (bound_range (zlen L) (zlen L) stop Hz ltac:(lia)) as B2.
    fold lo in B1. fold hi in B2. unfold ds_setslice. rewrite dv_size0, (slice_span start stop step _ Hz Hst). fold lo hi. change (negb (1 =? 1)) with false. cbv iota.
    destruct (ra_same v) eqn:Es; [|left; auto]. right. cbn [negb]. destruct (ra_len v =? hi - lo) eqn:El; [|left; split; [auto|split; [lia|reflexivity]]].
    right. split; [auto|]. cbn [negb]. pose proof (proj1 dv_written0) as Hw. pose proof (proj1 Hr) as Hrl.
    destruct (write_part T L nf f ds v um recs lo D Es Hn Hstr Hr) with (ds' := ds) as (f' & um' & E & R1 & R2 & R3); try lia; [rewrite <- Hw; exact dv_sizes0|exact dv_rt0|].
    exists f', um', (with_rows T lo recs), recs. split; [exact E|]. split; [exact Hr|]. split; [lia|]. split; [exact R3|].
    assert (Hpl : zlen (put L lo recs) = zlen L) by (apply put_len; lia). split; [|exact Hpl].
    constructor; auto; try (rewrite Hpl; auto). split; [rewrite Hpl; exact Hw|]. intros j x Hj. rewrite put_nth in Hj by lia. cbn [with_rows t_row].
    destruct ((lo <=? Z.of_nat j) && (Z.of_nat j <? lo + zlen recs)); [exact Hj|]. apply dv_written0. exact Hj.
  Qed.
  Lemma set_step T L nf f ds i v um : dinv T L nf f ds -> value_ok rt v um -> exists x f' T' L', dstep e bf alloc (f, ds) (DSet i v um) = Ret (x, (f', ds)) /\
    dspec (e_me e) rt L (DSet i v um) x L' /\ dinv T' L' nf f' ds /\ zlen L' = zlen L.
  Proof.
    intros D V.
    assert (G : forall start stop step, step_of (ISlice start stop step) = 1 -> step_of i = 1 -> span i (zlen L) = (bound (zlen L) 0 start, bound (zlen L) (zlen L) stop) ->
      ds_setitem e bf f ds i v um = ds_setslice e bf f ds start stop step v um ->
      exists x f' T' L', dstep e bf alloc (f, ds) (DSet i v um) = Ret (x, (f', ds)) /\ dspec (e_me e) rt L (DSet i v um) x L' /\ dinv T' L' nf f' ds /\ zlen L' = zlen L).
    { intros start stop step Hst Hi Hsp Ei. cbn [dstep]. rewrite Ei.
      destruct (setslice_ok T L nf f ds start stop step v um D V Hst) as [(Hs & E)|[(Hs & Hl & E)|(Hs & f' & um' & T' & recs & E & Hr & Hl & HW & D' & Hz)]]; rewrite E; cbn [bind].
      - eexists _, f, T, L. split; [reflexivity|]. split; [apply d_set_type; auto|auto].
      - eexists _, f, T, L. split; [reflexivity|]. split; [eapply d_set_len; eauto|auto].
      - eexists _, f', T', _. split; [reflexivity|]. split; [eapply d_set; eauto|auto]. }
    destruct i as [start stop step| |i].
    - destruct (Z.eq_dec (step_of (ISlice start stop step)) 1) as [Hst|Hst]; [apply (G start stop step); auto|].
      destruct (slice_steps start stop step (ds_size ds) Hst) as (s & -> & Hs & Es & Hx). cbn [dstep ds_setitem]. unfold ds_setslice.
      eexists _, f, T, L. split; [|split; [apply d_set_step; exact Hst|split; [exact D|reflexivity]]]. rewrite Es. destruct (s =? 0) eqn:E0; [rewrite Hx; reflexivity|].
      destruct Hx as (lo & hi & ->). replace (negb (s =? 1)) with true by lia. reflexivity.
    - apply (G None None None); auto.
    - apply (G (Some i) (Some (i + 1)) None); auto.
  Qed.

  Lemma append_step T L nf f ds v um N : dinv T L nf f ds -> value_ok rt v um ->
    (ra_same v = true -> 0 < N -> ra_len v * N < 2 ^ 63 /\ nf + N <= 2 ^ 24 /\ size_ok rt (zlen L + ra_len v)) ->
    exists x f' ds' T' L', dstep e bf alloc (f, ds) (DAppend v um N) = Ret (x, (f', ds')) /\ dspec (e_me e) rt L (DAppend v um N) x L' /\
      (if ra_same v && (0 <? N) then dinv T' L' (nf + N) f' ds' /\ zlen L' = zlen L + ra_len v else dinv T' L' nf f' ds' /\ zlen L' = zlen L).
  Proof.
    intros D V Hbig. pose proof V as (Hn & Hstr & recs & Hr). cbn [dstep]. unfold ds_append. destruct (ra_same v) eqn:Es; cbn [negb andb].
    2:{ cbn [bind]. eexists _, f, ds, T, L. split; [reflexivity|]. split; [apply d_append_type; auto|auto]. }
    destruct (0 <? N) eqn:EN.
    2:{ destruct (N <? 0) eqn:E0; cbn [bind].
        - eexists _, f, ds, T, L. split; [reflexivity|]. split; [apply d_append_files; auto; lia|auto].
        - replace ((N =? 0) && negb (ra_len v =? 0)) with true by lia. cbn [bind]. eexists _, f, ds, T, L. split; [reflexivity|]. split; [apply d_append_files; auto; lia|auto]. }
    replace (N <? 0) with false by lia. replace ((N =? 0) && negb (ra_len v =? 0)) with false by lia.
    destruct (Hbig eq_refl ltac:(lia)) as (B1 & B2 & B3). destruct (np_split_even (ra_len v) N) as (P1 & P2 & P3); try lia. pose proof D as [].
    set (gs := np_split (ra_len v) N) in *. set (T1 := mkTab (t_sizes T ++ gs) (t_row T) (t_sum T)).
    assert (Hzl : zlen (t_sizes T ++ gs) = nf + N) by (unfold zlen in *; rewrite app_length; lia).
    assert (Hzs : zsum (t_sizes T ++ gs) = zlen L + ra_len v).
    { rewrite zsum_app. rewrite P2. pose proof (proj1 dv_written0) as Hw. unfold t_size in Hw. lia. }
    assert (Hlay : layout_ok (t_sizes T ++ gs)).
    { destruct dv_layout0 as (A1 & A2 & A3). split; [|split].
      - apply Forall_app. split; [exact A1|]. eapply Forall_impl; [|exact P3]. intros a Ha. cbv beta in Ha.
        assert (0 <= ra_len v / N) by (apply Z.div_pos; lia). destruct Ha; lia.
      - rewrite Hzs. apply B3.
      - rewrite Hzl. change (2 ^ 31) with (128 * 2 ^ 24). lia. }
    destruct (append_records_ok e bf rt K T f gs dv_rec0 Hlay) as (f1 & E & I1); [lia|]. rewrite P1 in E. rewrite dv_rt0, E. cbn [bind]. change (negb (0 =? 0)) with false. cbv iota.
    fold T1 in I1. assert (HT1 : t_size T1 = zlen L + ra_len v) by (unfold T1, t_size; cbn; exact Hzs).
    pose proof (proj1 Hr) as Hrl. pose proof (zlen_nonneg L) as Hz.
    assert (D1 : dinv T L nf f ds) by exact D.
    assert (Hc : exists f' um', ds_write e bf f1 (mkDs rt (ds_size ds + ra_len v)) (ds_size ds) v um = Ret (PyRet tt, (f', um')) /\ rinv (with_rows T1 (ds_size ds) recs) f' /\ lens (with_rows T1 (ds_size ds) recs) /\
      left_by_write (e_me e) rt um um' (ra_data v) (ra_len v)).
    { pose proof (value_recs v um recs Hstr Hr) as Ra. destruct B3 as [S1 S2].
      assert (Hc : counts_ok rt (ra_len v)).
      { split; [lia|]. intros fd Hin. specialize (S2 fd Hin). apply In_nth_error in Hin. destruct Hin as (k & Hk). destruct (rk_field _ _ _ K k fd Hk) as (nm & F).
        pose proof (fk_nmemb _ _ _ _ F). nia. }
      destruct (write_records_ok e bf rt K T1 f1 (ds_size ds) (ra_len v) (ra_data v) um recs I1 ltac:(lia) Hc Ra) as (f' & um' & Ew & R).
      replace (ds_size ds + ra_len v <=? t_size T1) with true in * by lia. unfold ds_write. rewrite Es. cbn [negb ds_rt]. rewrite Ew. cbn [bind]. change (0 =? 0) with true. cbv iota.
      exists f', um'. destruct R as [R1 R2]. split; [reflexivity|]. split; [exact R1|]. split; [|exact R2].
      intros r x Hx. cbn [with_rows t_row T1] in Hx. destruct ((ds_size ds <=? r) && (r <? ds_size ds + zlen recs)); [|eapply dv_lens0; eauto].
      apply (proj2 Ra) in Hx. apply load_length in Hx. exact Hx. }
    destruct Hc as (f' & um' & Ew & R1 & R2 & R3). rewrite Ew. cbn [bind].
    assert (Hap : zlen (L ++ recs) = zlen L + ra_len v) by (unfold zlen in *; rewrite app_length; lia).
    eexists _, f', _, (with_rows T1 (ds_size ds) recs), (L ++ recs). split; [reflexivity|]. split; [eapply d_append; eauto; lia|]. split; [|exact Hap].
    constructor; cbn [ds_rt ds_size]; auto; try (rewrite Hap; auto); try lia.
    split; [rewrite Hap; exact (eq_sym HT1)|]. intros j x Hj. cbn [with_rows t_row T1]. rewrite dv_size0.
    assert (Hjl : (j < length (L ++ recs))%nat) by (apply nth_error_Some; congruence). rewrite app_length in Hjl. unfold zlen in *.
    destruct (lt_dec j (length L)) as [Hlt|Hge].
    - rewrite nth_error_app1 in Hj by lia. replace ((Z.of_nat (length L) <=? Z.of_nat j) && (Z.of_nat j <? Z.of_nat (length L) + Z.of_nat (length recs))) with false by lia. apply dv_written0. exact Hj.
    - rewrite nth_error_app2 in Hj by lia. replace ((Z.of_nat (length L) <=? Z.of_nat j) && (Z.of_nat j <? Z.of_nat (length L) + Z.of_nat (length recs))) with true by lia.
      rewrite <- Hj. f_equal. lia.
  Qed.

  Lemma data_run : forall os T L nf f ds, dinv T L nf f ds -> dops_ok rt (zlen L) nf os ->
    exists xs f' ds' L' T' nf', drun e bf alloc (f, ds) os = Ret (xs, (f', ds')) /\ dspecs (e_me e) rt L os xs L' /\ dinv T' L' nf' f' ds'.
  Proof.
    induction os as [|o os IH]; intros T L nf f ds D Hok.
    - exists [], f, ds, L, T, nf. split; [reflexivity|]. split; [constructor|exact D].
    - destruct o as [i|i v um|v um N]; cbn [dops_ok] in Hok.
      + destruct (get_step T L nf f ds i D) as (x & f1 & E & S & D1).
        destruct (IH T L nf f1 ds D1 Hok) as (xs & f' & ds' & L' & T' & nf' & E2 & S2 & D2).
        exists (x :: xs), f', ds', L', T', nf'. cbn [drun]. rewrite E. cbn [bind]. rewrite E2. cbn [bind]. split; [reflexivity|]. split; [econstructor; eauto|exact D2].
      + destruct Hok as [V Hok]. destruct (set_step T L nf f ds i v um D V) as (x & f1 & T1 & L1 & E & S & D1 & Hz).
        destruct (IH T1 L1 nf f1 ds D1) as (xs & f' & ds' & L' & T' & nf' & E2 & S2 & D2); [rewrite Hz; exact Hok|].
        exists (x :: xs), f', ds', L', T', nf'. cbn [drun]. rewrite E. cbn [bind]. rewrite E2. cbn [bind]. split; [reflexivity|]. split; [econstructor; eauto|exact D2].
      + destruct Hok as [V Hok]. destruct (append_step T L nf f ds v um N D V) as (x & f1 & ds1 & T1 & L1 & E & S & D1).
        { intros H1 H2. rewrite H1 in Hok. replace (0 <? N) with true in Hok by lia. cbn [andb] in Hok. destruct Hok as (A & B & C & _). auto. }
        destruct (ra_same v && (0 <? N)).
        * destruct Hok as (_ & _ & _ & Hok). destruct D1 as [D1 Hz]. destruct (IH T1 L1 (nf + N) f1 ds1 D1) as (xs & f' & ds' & L' & T' & nf' & E2 & S2 & D2); [rewrite Hz; exact Hok|].
          exists (x :: xs), f', ds', L', T', nf'. cbn [drun]. rewrite E. cbn [bind]. rewrite E2. cbn [bind]. split; [reflexivity|]. split; [econstructor; eauto|exact D2].
        * destruct D1 as [D1 Hz]. destruct (IH T1 L1 nf f1 ds1 D1) as (xs & f' & ds' & L' & T' & nf' & E2 & S2 & D2); [rewrite Hz; exact Hok|].
          exists (x :: xs), f', ds', L', T', nf'. cbn [drun]. rewrite E. cbn [bind]. rewrite E2. cbn [bind]. split; [reflexivity|]. split; [econstructor; eauto|exact D2].
  Qed.
End Steps.

(* ------------------------------------------------------------------ the whole story *)
Lemma rec_run_lens e bf rt : rec_kind e bf rt -> forall os T f, rec_inv e bf rt T f -> lens rt T -> layout_ok (t_sizes T) -> rops_ok rt (t_sizes T) os ->
  exists xs f' T', rrun e bf rt f os = Ret (xs, f') /\ rspecs (e_me e) rt T os xs T' /\ rec_inv e bf rt T' f' /\ lens rt T' /\ layout_ok (t_sizes T').
Proof.
  intros K. induction os as [|op os IH]; intros T f I HL HLa Hok.
  - exists [], f, T. split; [reflexivity|]. split; [constructor|auto].
  - destruct Hok as [H1 H2]. destruct (rec_step e bf rt K T f op I HL H1) as (x & f1 & T1 & E & S & I1 & L1 & Z1).
    destruct (IH T1 f1 I1 L1) as (xs & f2 & T2 & E2 & S2 & I2); [rewrite Z1; destruct op; cbn; auto; apply H1|rewrite Z1; exact H2|].
    exists (x :: xs), f2, T2. cbn [rrun]. rewrite E. cbn [bind]. rewrite E2. cbn [bind]. split; [reflexivity|]. split; [|auto].
    econstructor; eauto.
Qed.

Lemma same_names me rt rt' : same_type me rt rt' -> field_names rt' = field_names rt.
Proof.
  intros S. unfold field_names. apply nth_error_ext_eq; [rewrite !map_length; apply S|]. intros j v Hj. rewrite nth_error_map in *.
  destruct (nth_error (rt_fields rt') j) as [fd'|] eqn:E; [|discriminate]. destruct (same_fields _ _ _ _ _ S E) as (fd & E2 & Hn & _).
  rewrite E2. cbn in *. rewrite <- Hn. exact Hj.
Qed.

Lemma same_back me rt rt' : same_type me rt rt' -> same_type me rt' rt.
Proof.
  intros S. split; [symmetry; apply S|]. split; [symmetry; apply S|]. intros k fd' Hk. destruct (same_fields _ _ _ _ _ S Hk) as (fd & E & H1 & H2 & H3 & H4 & H5).
  exists fd. auto 10.
Qed.

Lemma dataset_story e bf rt f sizes os alloc : rec_kind e bf rt -> rt_itemsize rt < 2 ^ 31 ->
  (forall fd, In fd (rt_fields rt) -> numpy_type (e_me e) (rf_dtype fd)) ->
  new_records e bf rt f sizes -> rops_ok rt sizes os -> alloc_ok alloc ->
  exists xs f1 T rt', create_records_and_run e f bf rt sizes os = Ret (0, (xs, f1)) /\ rspecs (e_me e) rt (new_table sizes) os xs T /\
    same_type (e_me e) rt rt' /\ py_dataset e bf f1 (field_names rt) = Ret (PyRet (mkDs rt' (t_size T))) /\
    forall L ops, written T L -> size_ok rt (zlen L) -> dops_ok rt' (zlen L) (zlen (t_sizes T)) ops ->
    exists ys f2 ds L', drun e bf alloc (f1, mkDs rt' (t_size T)) ops = Ret (ys, (f2, ds)) /\ dspecs (e_me e) rt' L ops ys L' /\
      ds_size ds = zlen L' /\ py_dataset e bf f2 (field_names rt) = Ret (PyRet ds).
Proof.
  intros K H31 HN N Hok HA. destruct (create_records_ok e bf rt K f sizes N) as (f0 & E & I).
  destruct (rec_run_lens e bf rt K os (new_table sizes) f0 I) as (xs & f1 & T & E2 & S & I1 & L1 & La1); auto.
  { intros r v H. discriminate H. }
  { apply N. }
  destruct (dataset_opens e bf rt K HN H31) as (rt' & St & K' & Ho). exists xs, f1, T, rt'.
  split; [unfold create_records_and_run; rewrite E; cbn [bind]; rewrite E2; reflexivity|]. split; [exact S|]. split; [exact St|]. split; [apply Ho; exact I1|].
  intros L ops HW HS Hops. pose proof (proj1 HW) as Hz.
  destruct (data_run e bf rt' alloc K' HA ops T L (zlen (t_sizes T)) f1 (mkDs rt' (t_size T))) as (ys & f2 & ds & L' & T' & nf' & Er & Sp & D).
  - constructor; cbn; auto.
    + eapply same_inv; eauto.
    + intros r v H. rewrite (proj1 St). eapply L1; eauto.
    + destruct HS as [S1 S2]. split; [exact S1|]. intros fd' Hin. apply In_nth_error in Hin. destruct Hin as (k & Hk).
      destruct (same_fields _ _ _ _ _ St Hk) as (fd & E3 & _ & Hn & _). rewrite Hn. apply S2. eapply nth_error_In; eauto.
  - exact Hops.
  - exists ys, f2, ds, L'. split; [exact Er|]. split; [exact Sp|]. split; [apply D|].
    rewrite (Ho T' f2); [|eapply same_inv; [apply same_back; exact St|apply D]]. destruct D as [D1 D2 _ _ D5 _ _ _]. destruct ds as [r s]. cbn in *. subst. f_equal. f_equal. f_equal. symmetry. apply D5.
Qed.

(* ------------------------------------------------------------------ columns that do not match *)
Lemma columns_differ e bf f : forall names size acc,
  (forall nm, In nm names -> exists ob, big_file_open_block e f bf nm = Ret ob /\ forall b, ob = Some b -> np_str (b_dtype b) <> None) ->
  (exists nm, In nm names /\ big_file_open_block e f bf nm = Ret None) \/
  (exists nm b s, In nm names /\ big_file_open_block e f bf nm = Ret (Some b) /\ size = Some s /\ b_size b <> s) \/
  (exists nm nm' b b', In nm names /\ In nm' names /\ big_file_open_block e f bf nm = Ret (Some b) /\ big_file_open_block e f bf nm' = Ret (Some b') /\ b_size b <> b_size b') ->
  open_columns e bf f names size acc = Ret (PyRaise BigError).
Proof.
  induction names as [|nm names IH]; intros size acc Hop H.
  - exfalso. destruct H as [(? & [] & _)|[(? & ? & ? & [] & _)|(? & ? & ? & ? & [] & _)]].
  - cbn [open_columns]. destruct (Hop nm (or_introl eq_refl)) as (ob & E & Hty). rewrite E. cbn [bind]. destruct ob as [b|]; [|reflexivity].
    destruct (match size with Some s => negb (b_size b =? s) | None => false end) eqn:Em; [reflexivity|].
    destruct (np_str (b_dtype b)) as [d|] eqn:Ed; [|exfalso; exact (Hty b eq_refl Ed)].
    set (sz := match size with Some s => s | None => b_size b end).
    assert (Hsz : b_size b = sz) by (unfold sz; destruct size; lia).
    apply IH; [intros; apply Hop; right; auto|].
    destruct H as [(n1 & [<-|Hin] & E1)|[(n1 & b1 & s1 & [<-|Hin] & E1 & Es & Hne)|(n1 & n2 & b1 & b2 & [<-|H1] & [<-|H2] & E1 & E2 & Hne)]].
    + congruence.
    + left. eauto.
    + exfalso. rewrite E in E1. injection E1 as <-. subst size. apply Hne. exact Hsz.
    + right. left. exists n1, b1, sz. split; [exact Hin|]. split; [exact E1|]. split; [reflexivity|]. unfold sz. rewrite Es. exact Hne.
    + exfalso. rewrite E1 in E2. injection E2 as <-. congruence.
    + rewrite E in E1. injection E1 as <-. right. left. exists n2, b2, sz. split; [exact H2|]. split; [exact E2|]. split; [reflexivity|]. lia.
    + rewrite E in E2. injection E2 as <-. right. left. exists n1, b1, sz. split; [exact H1|]. split; [exact E1|]. split; [reflexivity|]. lia.
    + right. right. exists n1, n2, b1, b2. auto.
Qed.
