(* Proofs about creating, growing, flushing and opening blocks. *)
From Coq.Strings Require Import Byte String.
From Coq Require Import List ZArith Lia Bool ZifyBool ZifyNat.
From Verif Require Import Base BaseFacts Dtype Cast Array FS Fmt Attr Block Spec AttrSpec OpenSpec
  SeekFacts FSFacts HeaderFacts DtypeFacts AttrFacts TextFacts.
Import ListNotations.
Open Scope Z_scope.
Local Open Scope out_scope.
Ltac Zify.zify_post_hook ::= Z.div_mod_to_equations.

(* ------------------------------------------------------------ the header *)
Definition table_text (b : block) (sizes : list Z) : bytes :=
  header_text (b_dtype b) (b_nmemb b) (zlen sizes) (combine sizes (b_fchecksum b)).

Lemma firstn_combine {A B} n : forall (l1 : list A) (l2 : list B), firstn n (combine l1 l2) = combine (firstn n l1) (firstn n l2).
Proof. induction n; intros [|x l1] [|y l2]; simpl; auto. rewrite IHn. auto. Qed.

Lemma combine_firstn_r {A B} : forall (l1 : list A) (l2 : list B), combine l1 l2 = combine l1 (firstn (length l1) l2).
Proof. induction l1 as [|x l1 IH]; intros [|y l2]; simpl; auto. rewrite <- IH. auto. Qed.

Lemma header_image_text b sizes : has_layout b sizes -> header_image b = Ret (table_text b sizes).
Proof.
  intros H. unfold header_image. rewrite (hl_Nfile _ _ H).
  assert (L : length (b_fsize b) = S (length sizes)) by (rewrite (hl_fsize _ _ H), app_length; simpl; lia).
  rewrite header_lines_text; [|lia|unfold zlen; lia|rewrite (hl_cks _ _ H); auto].
  cbn [bind]. unfold table_text, header_text. change (Z.to_nat 0) with 0%nat. cbn [skipn].
  replace (Z.to_nat (zlen sizes)) with (length sizes) by (unfold zlen; lia).
  rewrite firstn_combine, (hl_fsize _ _ H), firstn_app, Nat.sub_diag, firstn_all, firstn_O, app_nil_r.
  rewrite <- combine_firstn_r. reflexivity.
Qed.

Lemma combine_num_ok b sizes : has_layout b sizes -> Forall num_ok (combine sizes (b_fchecksum b)).
Proof.
  intros H. pose proof (hl_nonneg _ _ H) as H1. pose proof (hl_cksr _ _ H) as H2. pose proof (hl_small _ _ H) as H3.
  assert (H4 : Forall (fun s => 0 <= s < 2 ^ 63) sizes).
  { clear H2 H. induction H1 as [|x l Hx Hl IH]; constructor.
    - split; auto. cbn [zsum fold_right] in H3. assert (0 <= fold_right Z.add 0 l) by (clear - Hl; induction Hl; simpl; lia). lia.
    - apply IH. cbn [zsum fold_right] in H3. unfold zsum. lia. }
  clear H1 H3 H. revert H2. generalize (b_fchecksum b). induction H4 as [|x l Hx Hl IH]; intros [|c cs] Hc; simpl; try constructor.
  - inversion Hc; subst. unfold num_ok. simpl. lia.
  - apply IH. inversion Hc; auto.
Qed.

Lemma combine_len b sizes : has_layout b sizes -> length (combine sizes (b_fchecksum b)) = length sizes.
Proof. intros H. rewrite combine_length, (hl_cks _ _ H). lia. Qed.

Lemma map_fst_combine {A B} : forall (l1 : list A) (l2 : list B), (length l1 <= length l2)%nat -> map fst (combine l1 l2) = l1.
Proof. induction l1 as [|x l1 IH]; intros [|y l2] H; simpl in *; auto; try lia. rewrite IH; auto. lia. Qed.
Lemma map_snd_combine {A B} : forall (l1 : list A) (l2 : list B), (length l1 <= length l2)%nat -> map snd (combine l1 l2) = firstn (length l1) l2.
Proof. induction l1 as [|x l1 IH]; intros [|y l2] H; simpl in *; auto; try lia. rewrite IH; auto. lia. Qed.

Definition read_back (b : block) (sizes : list Z) : hdr :=
  mkHdr (b_dtype b) (b_nmemb b) (zlen sizes) (sizes ++ [0]) (firstn (length sizes) (b_fchecksum b) ++ [0]).

Lemma parse_table b sizes : has_layout b sizes -> header_type (b_dtype b) -> 0 <= b_nmemb b < 2 ^ 31 ->
  zlen sizes <= 2 ^ 24 -> parse_header (table_text b sizes) = Ret (Some (read_back b sizes)).
Proof.
  intros H Hd Hn HN. unfold table_text, read_back. pose proof (combine_len b sizes H) as Hl.
  assert (Hz : zlen (combine sizes (b_fchecksum b)) = zlen sizes) by (unfold zlen; rewrite Hl; auto).
  rewrite <- Hz at 1. rewrite parse_header_text; [|split; [exact Hd|split; [auto|apply combine_num_ok; auto]]|rewrite Hz; exact HN].
  rewrite Hz, map_fst_combine, map_snd_combine by (rewrite (hl_cks _ _ H); lia). reflexivity.
Qed.

Lemma parse_table_cut b sizes p : has_layout b sizes -> header_type (b_dtype b) -> 0 <= b_nmemb b < 2 ^ 31 ->
  zlen sizes <= 2 ^ 24 -> (exists t, table_text b sizes = p ++ t) ->
  parse_header p = Ret None \/ parse_header p = Ret (Some (read_back b sizes)).
Proof.
  intros H Hd Hn HN Hp. unfold table_text, read_back in *. pose proof (combine_len b sizes H) as Hl.
  assert (Hz : zlen (combine sizes (b_fchecksum b)) = zlen sizes) by (unfold zlen; rewrite Hl; auto).
  rewrite <- Hz in Hp.
  destruct (parse_header_cut (b_dtype b) (b_nmemb b) (combine sizes (b_fchecksum b)) p) as [->| ->]; auto.
  - split; [exact Hd|split; [auto|apply combine_num_ok; auto]].
  - rewrite Hz; exact HN.
  - right. rewrite Hz, map_fst_combine, map_snd_combine by (rewrite (hl_cks _ _ H); lia). reflexivity.
Qed.

Lemma read_back_block base s b sizes : has_layout b sizes -> base = b_base b ->
  same_table b (block_of_header base s (read_back b sizes)) /\
  has_layout (block_of_header base s (read_back b sizes)) sizes /\
  b_attrset (block_of_header base s (read_back b sizes)) = s /\
  b_dirty (block_of_header base s (read_back b sizes)) = false.
Proof.
  intros H ->. pose proof (hl_nonneg _ _ H) as Hnn. pose proof (hl_small _ _ H) as Hs.
  assert (Hf : firstn (Z.to_nat (zlen sizes)) (sizes ++ [0]) = sizes).
  { replace (Z.to_nat (zlen sizes)) with (length sizes) by (unfold zlen; lia).
    rewrite firstn_app, Nat.sub_diag, firstn_all, firstn_O, app_nil_r. auto. }
  assert (Hck : length (firstn (length sizes) (b_fchecksum b)) = length sizes) by (rewrite firstn_length, (hl_cks _ _ H); lia).
  unfold block_of_header, read_back. cbn [h_dtype h_nmemb h_Nfile h_fsize h_fchecksum]. rewrite Hf.
  split; [|split; [|auto]].
  - constructor; cbn [b_dtype b_nmemb b_base b_size b_fsize b_foffset b_fchecksum b_Nfile]; auto.
    + apply H.
    + apply H.
    + rewrite (hl_foffset _ _ H). symmetry. apply offsets0; auto. lia.
    + rewrite (hl_size _ _ H). symmetry. apply offsets_last; auto. lia.
    + rewrite (hl_Nfile _ _ H). replace (Z.to_nat (zlen sizes)) with (length sizes) by (unfold zlen; lia).
      rewrite firstn_app, Hck, Nat.sub_diag, firstn_O, app_nil_r. symmetry. rewrite firstn_all2; auto. lia.
  - constructor; cbn [b_dtype b_nmemb b_base b_size b_fsize b_foffset b_fchecksum b_Nfile]; auto; try apply H.
    + apply offsets0; auto. lia.
    + apply offsets_last; auto. lia.
    + rewrite app_length, Hck. simpl. lia.
    + apply Forall_app. split; [|constructor; [lia|constructor]].
      pose proof (hl_cksr _ _ H) as Hc. rewrite Forall_forall in *. intros x Hx. apply Hc.
      rewrite <- (firstn_skipn (length sizes) (b_fchecksum b)). apply in_or_app. auto.
Qed.

(* ------------------------------------------------------------ files *)
Lemma parent_join base name : plain name -> parent (resolve (path_join base name)) = resolve base.
Proof. intros H. rewrite resolve_join by auto. unfold parent. apply removelast_last. Qed.

Lemma is_dir_get f p : fs_get f p = Some Dir -> is_dir f p = true.
Proof. unfold is_dir. intros ->. reflexivity. Qed.

Lemma fopen_w_ok f base name : plain name -> fs_get f (resolve base) = Some Dir ->
  fs_get f (resolve (path_join base name)) <> Some Dir ->
  fopen_w f (resolve (path_join base name)) = Some (fs_set f (resolve (path_join base name)) (File [])).
Proof.
  intros Hp Hd Hn. unfold fopen_w. rewrite parent_join by auto. rewrite (is_dir_get _ _ Hd).
  destruct (fs_get f (resolve (path_join base name))) as [[|c]|]; auto. congruence.
Qed.

Lemma base_not_file base name : plain name -> resolve base <> resolve (path_join base name).
Proof.
  intros H E. rewrite resolve_join in E by auto. apply (f_equal (@length bytes)) in E. rewrite app_length in E. simpl in E. lia.
Qed.

(* Writing a file of the block keeps the directory in order. *)
Lemma block_dir_set f base name c : plain name -> block_dir f base ->
  block_dir (fs_set f (resolve (path_join base name)) (File c)) base.
Proof.
  intros Hp (H1 & H2 & H3 & H4). pose proof (proper_join base name Hp) as Hpr.
  assert (Hne : forall q, fs_get f q <> Some Dir -> fs_get (fs_set f (resolve (path_join base name)) (File c)) q <> Some Dir).
  { intros q Hq. rewrite fs_get_set by auto. destruct (path_eqb _ _); [discriminate|auto]. }
  split; [|split; [|split]]; auto.
  rewrite fs_get_set_other; auto. apply base_not_file. auto.
Qed.

(* ------------------------------------------------------------ flush *)
Definition flushed (f : fs) (b : block) (sizes : list Z) (txt : bytes) (f' : fs) : Prop :=
  (fs_get f' (header_path (b_base b)) = if b_dirty b then Some (File (table_text b sizes)) else fs_get f (header_path (b_base b))) /\
  (fs_get f' (attr2_path (b_base b)) = if as_dirty (b_attrset b) then Some (File txt) else fs_get f (attr2_path (b_base b))) /\
  only_changes f f' (fun p => p = header_path (b_base b) \/ p = attr2_path (b_base b)).

Lemma flush_spec e f b sizes m : has_layout b sizes -> block_dir f (b_base b) ->
  as_ok (e_me e) (b_attrset b) m -> (as_dirty (b_attrset b) = true -> Forall (savable (e_me e)) m /\ g_clean e) ->
  exists f' ts, big_block_flush e f b =
    Ret (0, f', set_attrs (set_bdirty b false) (set_dirty (b_attrset b) false)) /\
    flushed f b sizes (text_lines m ts) f' /\ block_dir f' (b_base b) /\
    (as_dirty (b_attrset b) = true -> length ts = length m /\ Forall clean ts).
Proof.
  intros H Hd Hok Hsv. unfold big_block_flush. set (base := b_base b) in *.
  assert (E1 : exists f1, (if b_dirty b then
       match fopen_w f (header_path base) with
       | None => Ret (-1, f, b)
       | Some f' => img <- header_image b ;; Ret (0, fs_set f' (header_path base) (File img), set_bdirty b false)
       end else Ret (0, f, b)) = Ret (0, f1, set_bdirty b false) /\ block_dir f1 base /\
       fs_get f1 (header_path base) = (if b_dirty b then Some (File (table_text b sizes)) else fs_get f (header_path base)) /\
       only_changes f f1 (fun p => p = header_path base)).
  { destruct (b_dirty b) eqn:Eb.
    - destruct Hd as (D1 & D2 & D3 & D4). unfold header_path in *.
      rewrite (fopen_w_ok f base (lit "header") header_plain) by auto.
      rewrite (header_image_text b sizes H). cbn [bind]. eexists. split; [reflexivity|].
      split; [|split].
      + apply block_dir_set; [apply header_plain|]. apply block_dir_set; [apply header_plain|]. split; auto.
      + apply fs_get_set_same. apply header_path_proper.
      + intros p Hp. rewrite !fs_get_set_other by auto. reflexivity.
    - exists f. split; [destruct b; cbn in *; subst; reflexivity|]. split; auto. split; auto. intros p _. auto. }
  destruct E1 as (f1 & E1 & Hd1 & G1 & O1). rewrite E1. cbn [bind]. change (negb (0 =? 0)) with false. cbv iota.
  change (b_attrset (set_bdirty b false)) with (b_attrset b). change (b_base (set_bdirty b false)) with base.
  destruct (as_dirty (b_attrset b)) eqn:Ea.
  - destruct (Hsv eq_refl) as [Hs Hg]. destruct Hd1 as (D1 & D2 & D3 & D4). unfold attr2_path at 1.
    rewrite (fopen_w_ok f1 base (lit "attr-v2") attr2_plain) by auto.
    destruct (attr_lines_spec (e_fg e) Hg (e_me e) (b_attrset b) ltac:(apply Hok) (as_list (b_attrset b)) m) as (ts & Et & Hl & Hc); auto; [apply Hok|].
    rewrite Et. cbn [bind]. eexists _, ts. split; [reflexivity|]. split; [|split; [|auto]].
    + unfold flushed. split; [|split].
      * fold base. unfold attr2_path. rewrite !fs_get_set_other; auto; apply header_not_attr2.
      * fold base. rewrite Ea. apply fs_get_set_same. apply attr2_path_proper.
      * intros p Hp. fold base in Hp. fold (attr2_path base). rewrite !fs_get_set_other by tauto. apply O1. tauto.
    + fold (attr2_path base). apply block_dir_set; [apply attr2_plain|]. apply block_dir_set; [apply attr2_plain|]. split; auto.
  - exists f1, []. split; [|split; [|split; [auto|intros Hx; discriminate Hx]]].
    + f_equal. f_equal. destruct b as [? ? ? ? ? ? ? ? s ?]. destruct s. cbn in *. subst. reflexivity.
    + unfold flushed. fold base. rewrite Ea. split; [auto|]. split.
      * apply O1. intros Hx. symmetry in Hx. revert Hx. apply header_not_attr2.
      * intros p Hp. apply O1. tauto.
Qed.

(* ------------------------------------------------------------ open *)
Lemma strdup_id base : (length base <= Z.to_nat 8192)%nat -> strdup base = base.
Proof. intros H. unfold strdup. apply firstn_all2. exact H. Qed.

Definition attr_file (f : fs) (base : bytes) (es : list entry) (ts : list bytes) : Prop :=
  (es = [] /\ fs_get f (attr2_path base) = None) \/ fs_get f (attr2_path base) = Some (File (text_lines es ts)).

Lemma open_spec e f b sizes m ts : has_layout b sizes -> header_type (b_dtype b) -> 0 <= b_nmemb b < 2 ^ 31 ->
  zlen sizes <= 2 ^ 24 -> block_name (b_base b) ->
  fs_get f (attr1_path (b_base b)) = None ->
  attr_file f (b_base b) m ts ->
  esorted m -> Forall (savable (e_me e)) m -> Forall (line_entry_ok (e_me e)) m -> Forall clean ts -> length ts = length m ->
  zsum (map esize m) <= 2 ^ 61 ->
  forall h, fs_get f (header_path (b_base b)) = Some (File h) ->
  (parse_header h = Ret (Some (read_back b sizes)) ->
   exists b' , big_block_open e f (b_base b) = Ret (Some b') /\ same_table b b' /\ has_layout b' sizes /\
     as_ok (e_me e) (b_attrset b') m /\ b_dirty b' = false /\ as_dirty (b_attrset b') = false /\
     as_bufused (b_attrset b') = zsum (map esize m)) /\
  (parse_header h = Ret None -> big_block_open e f (b_base b) = Ret None).
Proof.
  intros H Hdt Hnm HN (Hmeta & Hlen & Hbl) Ha1 Ha2 Hso Hsv Hle Hcl Hlt Hsz h Hh.
  set (base := b_base b) in *.
  set (s0 := set_dirty (attrset_create (e_malloc e)) false).
  assert (H0 : as_ok (e_me e) s0 []) by (apply as_ok_dirty, create_ok).
  assert (E2 : exists s2, (match fopen_r f (attr2_path base) with Some None => False | _ => True end) /\
     attrset_read_v2 (e_realloc e) (e_me e) s0 (file_contents f (attr2_path base)) = Ret (0, s2) /\
     as_ok (e_me e) s2 m /\ as_dirty s2 = false /\ as_bufused s2 = zsum (map esize m)).
  { destruct Ha2 as [[-> Ha2]|Ha2]; unfold file_contents, fopen_r; rewrite Ha2.
    - exists s0. split; auto.
    - destruct (read_v2_spec (e_realloc e) (e_me e) s0 [] m ts) as (s2 & m2 & E & A & B & B' & C); auto.
      { apply esorted_nodup. auto. }
      assert (m2 = m).
      { apply esorted_ext; auto; [apply A|]. intros n. rewrite C. simpl. destruct (assoc n m); auto. }
      subst m2. exists s2. auto. }
  destruct E2 as (s2 & Edir & E2 & A2 & B2 & B3).
  assert (Em : forall (X Y : out (option block)), match fopen_r f (attr2_path base) with Some None => X | _ => Y end = Y).
  { intros. destruct (fopen_r f (attr2_path base)) as [[?|]|]; auto. contradiction. }
  assert (Eo : big_block_open e f base = (h0 <- parse_header h ;;
     match h0 with None => Ret None | Some h => Ret (Some (block_of_header base s2 h)) end)).
  { unfold big_block_open. rewrite strdup_id by auto.
    assert (Ec : file_contents f (attr1_path base) = None) by (unfold file_contents, fopen_r; rewrite Ha1; auto).
    rewrite Ec. unfold attrset_read_v1. cbn [bind]. change (negb (0 =? 0)) with false. cbv iota. fold s0.
    rewrite Em, E2. cbn [bind]. change (negb (0 =? 0)) with false. cbv iota. rewrite Hmeta.
    unfold fopen_r. rewrite Hh. reflexivity. }
  rewrite Eo. split; intros Hp; rewrite Hp; cbn [bind]; auto.
  destruct (read_back_block base s2 b sizes H eq_refl) as (S1 & S2 & S3 & S4).
  eexists. split; [reflexivity|]. split; [exact S1|]. split; [exact S2|]. rewrite S3, S4. auto.
Qed.

(* ------------------------------------------------------------ create *)
Lemma truncate_spec base : forall n f i, 0 <= i -> i + Z.of_nat n < 2 ^ 31 -> block_dir f base ->
  exists f', truncate_files f base i n = (0, f') /\ block_dir f' base /\
    (forall j, i <= j < i + Z.of_nat n -> fs_get f' (data_path base j) = Some (File [])) /\
    only_changes f f' (fun p => exists j, i <= j < i + Z.of_nat n /\ p = data_path base j).
Proof.
  induction n as [|n IH]; intros f i Hi Hb Hd; cbn [truncate_files].
  - exists f. split; [auto|]. split; [auto|]. split; [intros; lia|]. intros p _. auto.
  - pose proof Hd as (D1 & D2 & D3 & D4). pose proof (print_06X_plain i Hi) as Hpl.
    unfold data_path at 1. rewrite (fopen_w_ok f base (print_06X i) Hpl) by (auto; apply D4; auto).
    destruct (IH (fs_set f (resolve (path_join base (print_06X i))) (File [])) (i + 1)) as (f' & E & Hd' & G & O); try lia.
    { apply block_dir_set; auto. }
    exists f'. split; [exact E|]. split; [exact Hd'|]. split.
    + intros j Hj. destruct (Z.eq_dec j i) as [->|]; [|apply G; lia].
      rewrite O.
      * apply fs_get_set_same. apply data_path_proper. auto.
      * intros (k & Hk & Ek). apply data_path_inj in Ek; lia.
    + intros p Hp. rewrite O.
      * apply fs_get_set_other. intros ->. apply Hp. exists i. split; [lia|reflexivity].
      * intros (k & Hk & ->). apply Hp. exists k. split; [lia|reflexivity].
Qed.

Lemma fresh_layout d nmemb base sizes cks s dirty : layout_ok sizes -> length cks = S (length sizes) ->
  Forall (fun c => 0 <= c < 2 ^ 32) cks ->
  has_layout (mkBlock d nmemb base (last (offsets 0 sizes) 0) (sizes ++ [0]) (offsets 0 sizes) cks (zlen sizes) s dirty) sizes.
Proof.
  intros (H1 & H2 & H3) Hc1 Hc2. constructor; cbn; auto.
  - apply offsets0; auto. lia.
  - apply offsets_last; auto. lia.
Qed.

Lemma create_spec e f base d nmemb sizes : block_name base -> block_dir f base -> layout_ok sizes ->
  exists f' b, big_block_create e f base (Some d) nmemb (zlen sizes) sizes = Ret (f', Some b) /\
    has_layout b sizes /\ b_dtype b = dtype_normalize (e_me e) d /\ b_nmemb b = nmemb /\ b_base b = base /\
    as_ok (e_me e) (b_attrset b) [] /\ b_dirty b = false /\ as_dirty (b_attrset b) = false /\
    b_fchecksum b = repeat 0 (S (length sizes)) /\
    block_dir f' base /\
    fs_get f' (header_path base) = Some (File (table_text b sizes)) /\
    fs_get f' (attr2_path base) = Some (File []) /\
    (forall i, (i < length sizes)%nat -> data_file f' base i = Some []) /\
    only_changes f f' (fun p => p = header_path base \/ p = attr2_path base \/
       exists j, 0 <= j < zlen sizes /\ p = data_path base j).
Proof.
  intros (Hmeta & Hlen & Hbl) Hd Hl. unfold big_block_create, create_internal. rewrite Hbl, strdup_id, Hmeta by auto.
  pose proof (zlen_nonneg sizes) as Hz. pose proof Hl as (L1 & L2 & L3).
  destruct (zlen sizes <? -1) eqn:E1; [lia|]. destruct ((zlen sizes <? 0) || (zlen sizes <? zlen sizes)) eqn:E2; [lia|].
  replace (Z.to_nat (zlen sizes)) with (length sizes) by (unfold zlen; lia). rewrite firstn_all.
  set (b0 := mkBlock _ _ _ _ _ _ _ _ _ _).
  assert (Hlay : has_layout b0 sizes).
  { apply fresh_layout; auto; [apply repeat_length|]. apply Forall_forall. intros x Hx. apply repeat_spec in Hx. lia. }
  assert (Hok : as_ok (e_me e) (b_attrset b0) []) by (apply as_ok_dirty, create_ok).
  assert (Hf : exists f1 ts, big_block_flush e f b0 = Ret (0, f1, set_attrs (set_bdirty b0 false) (set_dirty (b_attrset b0) false)) /\
    flushed f b0 sizes (text_lines [] ts) f1 /\ block_dir f1 base).
  { clear - Hlay Hd Hok. unfold big_block_flush. cbn [b0 b_dirty b_base].
    unfold header_path at 1. pose proof Hd as (D1 & D2 & D3 & D4).
    rewrite (fopen_w_ok f base (lit "header") header_plain) by auto.
    rewrite (header_image_text b0 sizes Hlay). cbn [bind]. change (negb (0 =? 0)) with false. cbv iota.
    change (as_dirty (b_attrset (set_bdirty b0 false))) with true. cbv iota.
    change (b_base (set_bdirty b0 false)) with base.
    set (f1 := fs_set _ _ _).
    assert (Hd1 : block_dir f1 base).
    { apply block_dir_set; [apply header_plain|]. apply block_dir_set; [apply header_plain|]. auto. }
    pose proof Hd1 as (D1' & D2' & D3' & D4').
    unfold attr2_path at 1. rewrite (fopen_w_ok f1 base (lit "attr-v2") attr2_plain) by auto.
    change (as_list (b_attrset (set_bdirty b0 false))) with (@nil attr). cbn [attr_lines bind].
    eexists _, []. split; [reflexivity|]. split.
    - unfold flushed. cbn [b0 b_base b_dirty b_attrset as_dirty set_dirty]. fold b0. split; [|split].
      + unfold attr2_path. rewrite !fs_get_set_other by apply header_not_attr2. unfold f1. apply fs_get_set_same, header_path_proper.
      + apply fs_get_set_same, attr2_path_proper.
      + intros p Hp. fold (attr2_path base). rewrite !fs_get_set_other by tauto. unfold f1. rewrite !fs_get_set_other by tauto. reflexivity.
    - apply block_dir_set; [apply attr2_plain|]. apply block_dir_set; [apply attr2_plain|]. auto. }
  destruct Hf as (f1 & ts & Ef & (G1 & G2 & O1) & Hd1). rewrite Ef. cbn [bind]. change (negb (0 =? 0)) with false. cbv iota.
  cbn [bind]. set (b1 := set_bdirty _ false).
  change (b_base b1) with base. change (b_Nfile b1) with (zlen sizes).
  replace (Z.to_nat (zlen sizes)) with (length sizes) by (unfold zlen; lia).
  destruct (truncate_spec base (length sizes) f1 0) as (f2 & Et & Hd2 & G3 & O2); try (unfold zlen in L3; lia); auto.
  rewrite Et. cbn [bind]. change (negb (0 =? 0)) with false. cbv iota.
  cbn [b0 b_base b_dirty b_attrset as_dirty set_dirty] in G1, G2, O1. fold b0 in G1.
  exists f2, b1. split; [reflexivity|].
  assert (Hl1 : has_layout b1 sizes) by (destruct Hlay; constructor; auto).
  split; [exact Hl1|]. do 3 (split; [reflexivity|]). split; [apply as_ok_dirty; exact Hok|].
  do 3 (split; [reflexivity|]). split; [exact Hd2|].
  split; [|split; [|split]].
  - rewrite O2; [exact G1|]. intros (j & Hj & Ej). symmetry in Ej. revert Ej. apply data_not_header. lia.
  - rewrite O2; [exact G2|]. intros (j & Hj & Ej). symmetry in Ej. revert Ej. apply data_not_attr2. lia.
  - intros i Hi. unfold data_file. rewrite G3 by lia. reflexivity.
  - intros p Hp. rewrite O2, O1; auto.
    + intros [->| ->]; apply Hp; auto.
Qed.

(* ------------------------------------------------------------ grow *)
Lemma zlen_app {A} (a b : list A) : zlen (a ++ b) = zlen a + zlen b.
Proof. unfold zlen. rewrite app_length. lia. Qed.

Lemma grow_spec f b sizes gs : has_layout b sizes -> block_dir f (b_base b) -> layout_ok (sizes ++ gs) ->
  exists f' b', big_block_grow f b (zlen gs) gs = Ret (0, f', b') /\
    has_layout b' (sizes ++ gs) /\ b_dtype b' = b_dtype b /\ b_nmemb b' = b_nmemb b /\ b_base b' = b_base b /\
    b_attrset b' = b_attrset b /\ b_dirty b' = true /\
    b_fchecksum b' = firstn (length sizes) (b_fchecksum b) ++ repeat 0 (S (length gs)) /\
    block_dir f' (b_base b) /\
    (forall i, (length sizes <= i < length sizes + length gs)%nat -> data_file f' (b_base b) i = Some []) /\
    only_changes f f' (fun p => exists j, zlen sizes <= j < zlen sizes + zlen gs /\ p = data_path (b_base b) j).
Proof.
  intros H Hd Hl. unfold big_block_grow, grow_internal. rewrite (hl_Nfile _ _ H).
  pose proof (zlen_nonneg sizes). pose proof (zlen_nonneg gs). pose proof Hl as (L1 & L2 & L3). rewrite zlen_app in L3.
  destruct ((zlen gs + zlen sizes + 1 <? zlen sizes) || (zlen gs <? zlen gs) || (zlen gs + zlen sizes <? 0)) eqn:E; [lia|]. clear E.
  cbn [bind].
  replace (Z.to_nat (zlen sizes)) with (length sizes) by (unfold zlen; lia).
  replace (Z.to_nat (zlen gs)) with (length gs) by (unfold zlen; lia).
  replace (Z.to_nat (zlen gs + zlen sizes)) with (length (sizes ++ gs)) by (rewrite app_length; unfold zlen; lia).
  assert (Es : firstn (length sizes) (b_fsize b) = sizes) by (rewrite (hl_fsize _ _ H), firstn_app, firstn_all, Nat.sub_diag, firstn_O; apply app_nil_r).
  rewrite Es, (firstn_all gs), (firstn_all (sizes ++ gs)).
  assert (Hck : length (firstn (length sizes) (b_fchecksum b)) = length sizes) by (rewrite firstn_length, (hl_cks _ _ H); lia).
  assert (Ec : firstn (length (sizes ++ gs)) (firstn (length sizes) (b_fchecksum b) ++ repeat 0 (length gs)) ++ [0] = firstn (length sizes) (b_fchecksum b) ++ repeat 0 (S (length gs))).
  { rewrite firstn_all2 by (rewrite !app_length, Hck, repeat_length; lia).
    rewrite <- app_assoc. f_equal. change [0] with (repeat 0 1). rewrite <- repeat_app. f_equal. lia. }
  rewrite Ec. cbn [b_Nfile b_base].
  replace (Z.to_nat (zlen gs + zlen sizes - zlen sizes)) with (length gs) by (unfold zlen; lia).
  destruct (truncate_spec (b_base b) (length gs) f (zlen sizes)) as (f' & Et & Hd' & G & O); try (unfold zlen in *; lia); auto.
  rewrite Et. eexists f', _. split; [reflexivity|].
  split.
  - replace (zlen gs + zlen sizes) with (zlen (sizes ++ gs)) by (rewrite zlen_app; lia).
    apply fresh_layout; auto.
    + rewrite !app_length, Hck, repeat_length. lia.
    + apply Forall_app. split.
      * pose proof (hl_cksr _ _ H) as Hc. rewrite Forall_forall in *. intros x Hx. apply Hc.
        rewrite <- (firstn_skipn (length sizes) (b_fchecksum b)). apply in_or_app. auto.
      * apply Forall_forall. intros x Hx. apply repeat_spec in Hx. lia.
  - do 6 (split; [reflexivity|]). split; [exact Hd'|]. split.
    + intros i Hi. unfold data_file. rewrite G by (unfold zlen; lia). reflexivity.
    + intros p Hp. apply O. intros (j & Hj & ->). apply Hp. exists j. split; [unfold zlen in *; lia|auto].
Qed.

(* Rows of a grown block. *)
Lemma home_app_l sizes gs r : 0 <= r < zsum sizes -> Forall (fun s => 0 <= s) sizes -> home (sizes ++ gs) r = home sizes r.
Proof.
  revert r. induction sizes as [|s sizes IH]; intros r Hr Hf; [simpl in Hr; lia|]. inversion Hf; subst.
  cbn [app home]. destruct (r <? 0) eqn:E0; [lia|]. destruct (r <? s) eqn:E1; auto.
  cbn [zsum fold_right] in Hr. rewrite IH; auto. unfold zsum. lia.
Qed.
Lemma home_app_r sizes gs r : zsum sizes <= r -> Forall (fun s => 0 <= s) sizes ->
  home (sizes ++ gs) r = match home gs (r - zsum sizes) with Some (i, q) => Some ((length sizes + i)%nat, q) | None => None end.
Proof.
  revert r. induction sizes as [|s sizes IH]; intros r Hr Hf.
  - simpl. rewrite Z.sub_0_r. destruct (home gs r) as [[i q]|]; auto.
  - inversion Hf; subst. cbn [zsum fold_right] in *. fold (zsum sizes) in *.
    assert (0 <= zsum sizes) by (clear - H2; unfold zsum; induction H2; simpl; lia).
    cbn [app home]. destruct (r <? 0) eqn:E0; [lia|]. destruct (r <? s) eqn:E1; [lia|].
    rewrite IH by (auto; lia). replace (r - s - zsum sizes) with (r - (s + zsum sizes)) by lia.
    destruct (home gs (r - (s + zsum sizes))) as [[i q]|]; auto.
Qed.
Lemma home_lt : forall sizes r i q, home sizes r = Some (i, q) -> (i < length sizes)%nat /\ 0 <= q.
Proof.
  induction sizes as [|s sizes IH]; intros r i q H; [discriminate|]. cbn [home] in H.
  destruct (r <? 0) eqn:E0; [discriminate|]. destruct (r <? s) eqn:E1; [inversion H; subst; simpl; lia|].
  destruct (home sizes (r - s)) as [[i' q']|] eqn:E2; [|discriminate]. inversion H; subst.
  apply IH in E2. simpl. lia.
Qed.

Lemma grow_rows f f' base sizes gs w : 0 < w -> Forall (fun s => 0 <= s) sizes -> zlen sizes + zlen gs < 2 ^ 31 ->
  (forall i, (length sizes <= i < length sizes + length gs)%nat -> data_file f' base i = Some []) ->
  only_changes f f' (fun p => exists j, zlen sizes <= j < zlen sizes + zlen gs /\ p = data_path base j) ->
  (forall r, 0 <= r < zsum sizes -> stored_row f' base (sizes ++ gs) w r = stored_row f base sizes w r) /\
  (forall r, zsum sizes <= r -> stored_row f' base (sizes ++ gs) w r = None).
Proof.
  intros Hw Hn Hc G O. split; intros r Hr; unfold stored_row.
  - rewrite home_app_l by auto. destruct (home sizes r) as [[i q]|] eqn:E; auto. apply home_lt in E. destruct E as [E _].
    assert (Ed : data_file f' base i = data_file f base i).
    { unfold data_file. rewrite O; auto. intros (j & Hj & Ej). apply data_path_inj in Ej; unfold zlen in *; lia. }
    rewrite Ed. auto.
  - rewrite home_app_r by auto. destruct (home gs (r - zsum sizes)) as [[i q]|] eqn:E; auto. apply home_lt in E. destruct E as [E Hq].
    rewrite G by lia. change (zlen (@nil byte)) with 0. destruct ((q + 1) * w <=? 0) eqn:Ew; [nia|]. auto.
Qed.

Lemma fresh_rows f base sizes w r : 0 < w -> (forall i, (i < length sizes)%nat -> data_file f base i = Some []) ->
  stored_row f base sizes w r = None.
Proof.
  intros Hw G. unfold stored_row. destruct (home sizes r) as [[i q]|] eqn:E; auto. apply home_lt in E.
  rewrite G by tauto. change (zlen (@nil byte)) with 0. destruct ((q + 1) * w <=? 0) eqn:Ew; [nia|]. auto.
Qed.
