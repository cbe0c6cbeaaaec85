(* Properties C15 - C19, C35, C36: headers, creating, growing, reopening. *)
From Coq.Strings Require Import Byte String.
From Coq Require Import List ZArith Lia Bool.
From Verif Require Import Base BaseFacts Dtype Cast Array FS Fmt Attr Block Spec AttrSpec OpenSpec
  FSFacts DtypeFacts AttrFacts OpenFacts ReopenFacts Ex.
Import ListNotations.
Open Scope Z_scope.

(* ------------------------------------------------------------------ examples *)
(* ex_f with a header for ex_b *)
Definition ex_hdr : bytes := match header_image ex_b with Ret c => c | _ => [] end.
Definition ex_fh : fs := fs_set ex_f [lit "d"; lit "blk"; lit "header"] (File ex_hdr).
Definition ex_base : bytes := lit "d/blk".
Definition ex_bd : block := set_bdirty ex_b true.

Lemma ex_name : block_name ex_base.
Proof. split; [reflexivity|split; [vm_compute; repeat constructor|reflexivity]]. Qed.

Lemma find_dir f p : fs_find f p = Some Dir -> In (p, Dir) f.
Proof.
  induction f as [|[q n] f IH]; simpl; [discriminate|]. destruct (path_eqb q p) eqn:E; auto.
  intros H. injection H as ->. left. f_equal. apply path_eqb_eq. auto.
Qed.

Lemma ex_dir_gen f : In ([lit "d"; lit "blk"], Dir) f -> fs_find f [lit "d"; lit "blk"] = Some Dir ->
  (forall p, In (p, Dir) f -> (length p <= 2)%nat) -> block_dir f ex_base.
Proof.
  intros _ H0 H. assert (K : forall p, length p = 3%nat -> fs_get f p <> Some Dir).
  { intros p Hp Hg. destruct p as [|x [|y p]]; simpl in Hp; try lia. simpl in Hg. apply find_dir, H in Hg. simpl in Hg. lia. }
  split; [exact H0|]. split; [|split].
  - apply K. reflexivity.
  - apply K. reflexivity.
  - intros i Hi. apply K. unfold data_path. rewrite resolve_join by (apply print_06X_plain; auto). rewrite app_length. reflexivity.
Qed.
Lemma ex_dir : block_dir ex_f ex_base.
Proof. apply ex_dir_gen; [vm_compute; auto|reflexivity|]. intros p H. repeat (destruct H as [H|H]; [injection H as <-; simpl; lia || discriminate|]); destruct H. Qed.
Lemma ex_dirh : block_dir ex_fh ex_base.
Proof. apply ex_dir_gen; [vm_compute; auto|reflexivity|]. intros p H. repeat (destruct H as [H|H]; [injection H as <-; simpl; lia || discriminate|]); destruct H. Qed.
Lemma ex_type : header_type (lit ">i4").
Proof. split; [reflexivity|]. split; [simpl; lia|]. repeat constructor; discriminate. Qed.
Lemma ex_layoutd : has_layout ex_bd ex_sizes.
Proof. constructor; try reflexivity; repeat constructor; discriminate. Qed.
Lemma ex_open : exists b0, big_block_open ex_e ex_fh ex_base = Ret (Some b0).
Proof.
  assert (H : match big_block_open ex_e ex_fh ex_base with Ret (Some _) => True | _ => False end) by (vm_compute; exact I).
  destruct (big_block_open ex_e ex_fh ex_base) as [[b0|]|u|]; try contradiction. eauto.
Qed.

(* ------------------------------------------------------------------ C15 *)
(* A block that can be opened is opened (b0), its table is changed to that of
   b in any way and flushed. *)
Theorem C15_header_round_trip : forall e f b0 b sizes,
  block_name (b_base b) -> block_dir f (b_base b) ->
  big_block_open e f (b_base b) = Ret (Some b0) ->
  has_layout b sizes -> header_type (b_dtype b) -> 0 <= b_nmemb b < 2 ^ 31 -> zlen sizes <= 2 ^ 24 ->
  b_dirty b = true -> as_dirty (b_attrset b) = false ->
  exists f' b' b2, big_block_flush e f b = Ret (0, f', b') /\ big_block_open e f' (b_base b) = Ret (Some b2) /\
    same_table b b2 /\ has_layout b2 sizes /\ b_attrset b2 = b_attrset b0.
Proof. exact flush_open_table. Qed.

Example C15_example : block_name (b_base ex_bd) /\ block_dir ex_fh (b_base ex_bd) /\
  (exists b0, big_block_open ex_e ex_fh (b_base ex_bd) = Ret (Some b0)) /\
  has_layout ex_bd ex_sizes /\ header_type (b_dtype ex_bd) /\ b_dirty ex_bd = true.
Proof. repeat (split; [first [exact ex_name|exact ex_dirh|exact ex_open|exact ex_layoutd|exact ex_type]|]). reflexivity. Qed.

(* ------------------------------------------------------------------ C16 *)
(* Whatever the header holds: what open returns. *)
Theorem C16_open_result : forall e f base b, block_name base -> big_block_open e f base = Ret (Some b) ->
  dtype_isvalid (b_dtype b) = true /\ 0 <= b_nmemb b < 2 ^ 31 /\ 0 <= b_Nfile b < 2 ^ 31 - 2 /\
  zlen (b_fsize b) = b_Nfile b + 1 /\ zlen (b_fchecksum b) = b_Nfile b + 1 /\ zlen (b_foffset b) = b_Nfile b + 1 /\
  (forall i, 0 <= i <= b_Nfile b ->
     znth (b_foffset b) i = Some (zsum (firstn (Z.to_nat i) (b_fsize b)) mod 2 ^ 64)) /\
  b_size b = zsum (b_fsize b) mod 2 ^ 64.
Proof. exact open_result. Qed.

(* No undefined behaviour, provided the element type has fewer than 8
   characters (and the block has no attribute files). *)
Theorem C16_open_safe_partial : forall e f base c, block_name base ->
  fs_get f (attr1_path base) = None -> fs_get f (attr2_path base) = None ->
  fs_get f (header_path base) = Some (File c) -> short_type c ->
  exists r, big_block_open e f base = Ret r.
Proof. exact open_safe. Qed.

(* A longer one overruns the 8 byte field. *)
Definition ex_long : bytes := lit "DTYPE: <i4567890" ++ [x0a] ++ lit "NMEMB: 1" ++ [x0a] ++ lit "NFILE: 0" ++ [x0a].
Theorem C16_open_safe_refuted : exists e f base c, block_name base /\
  fs_get f (attr1_path base) = None /\ fs_get f (attr2_path base) = None /\
  fs_get f (header_path base) = Some (File c) /\
  big_block_open e f base = Undef OOB.
Proof.
  exists ex_e, (fs_set ex_f [lit "d"; lit "blk"; lit "header"] (File ex_long)), ex_base, ex_long.
  split; [exact ex_name|]. repeat split; reflexivity.
Qed.

(* A negative file size is accepted: the total is not the sum of the sizes in
   the header. *)
Definition ex_negsize : bytes := lit "DTYPE: <i4" ++ [x0a] ++ lit "NMEMB: 1" ++ [x0a] ++ lit "NFILE: 1" ++ [x0a] ++ lit "000000: -1 : 0 : 0" ++ [x0a].
Theorem C16_negative_size_refuted : exists e f base c, block_name base /\
  fs_get f (header_path base) = Some (File c) /\ short_type c /\
  exists b, big_block_open e f base = Ret (Some b) /\ b_size b = 2 ^ 64 - 1.
Proof.
  exists ex_e, (fs_set ex_f [lit "d"; lit "blk"; lit "header"] (File ex_negsize)), ex_base, ex_negsize.
  split; [exact ex_name|]. split; [reflexivity|]. split.
  - intros s1 tok s2 H1 H2. vm_compute in H1. injection H1 as <-. vm_compute in H2. injection H2 as <- _. simpl. lia.
  - eexists. split; vm_compute; reflexivity.
Qed.

Example C16_example : fs_get ex_fh (header_path ex_base) = Some (File ex_hdr) /\ short_type ex_hdr /\
  fs_get ex_fh (attr1_path ex_base) = None /\ fs_get ex_fh (attr2_path ex_base) = None.
Proof.
  split; [reflexivity|]. split; [|split; reflexivity].
  intros s1 tok s2 H1 H2. vm_compute in H1. injection H1 as <-. vm_compute in H2. injection H2 as <- _. simpl. lia.
Qed.

(* ------------------------------------------------------------------ C17 *)
(* Crash while flush rewrites the header of b: of the new contents p ++ t only
   p reached the disk. *)
Theorem C17_header_crash : forall e f f1 b0 b sizes p t, block_name (b_base b) ->
  big_block_open e f (b_base b) = Ret (Some b0) ->
  has_layout b sizes -> header_type (b_dtype b) -> 0 <= b_nmemb b < 2 ^ 31 -> zlen sizes <= 2 ^ 24 ->
  header_image b = Ret (p ++ t) ->
  only_changes f f1 (fun q => q = header_path (b_base b)) ->
  fs_get f1 (header_path (b_base b)) = Some (File p) ->
  big_block_open e f1 (b_base b) = Ret None \/
  exists b2, big_block_open e f1 (b_base b) = Ret (Some b2) /\ same_table b b2 /\ has_layout b2 sizes.
Proof. exact open_cut. Qed.

(* Both outcomes occur. *)
Definition ex_crash (k : nat) : fs := fs_set ex_f [lit "d"; lit "blk"; lit "header"] (File (firstn k ex_hdr)).
Example C17_example : (exists t, header_image ex_bd = Ret (firstn 60 ex_hdr ++ t)) /\
  only_changes ex_fh (ex_crash 60) (fun q => q = header_path ex_base) /\
  big_block_open ex_e (ex_crash 60) ex_base = Ret None /\
  (exists b2, big_block_open ex_e (ex_crash (length ex_hdr - 1)) ex_base = Ret (Some b2)).
Proof.
  split; [eexists; vm_compute; reflexivity|]. split.
  - intros p Hp. unfold ex_fh, ex_crash. change [lit "d"; lit "blk"; lit "header"] with (header_path ex_base).
    rewrite !fs_get_set_other by auto. reflexivity.
  - split; [vm_compute; reflexivity|].
    assert (H : match big_block_open ex_e (ex_crash (length ex_hdr - 1)) ex_base with Ret (Some _) => True | _ => False end) by (vm_compute; exact I).
    destruct (big_block_open ex_e (ex_crash (length ex_hdr - 1)) ex_base) as [[b0|]|u|]; try contradiction. eauto.
Qed.

(* ------------------------------------------------------------------ C18 *)
(* Create succeeds for every type without blanks, every width and every list
   of sizes; open then succeeds exactly when the type is a valid one, the
   width is not negative and there are at most 2^24 files. *)
Theorem C18_created_reopens_partial : forall e f base d nmemb sizes,
  block_name base -> block_dir f base -> layout_ok sizes ->
  fs_get f (attr1_path base) = None ->
  Forall (fun c => is_space c = false /\ c <> x00) d -> - 2 ^ 31 <= nmemb < 2 ^ 31 ->
  exists f' b, big_block_create e f base (Some d) nmemb (zlen sizes) sizes = Ret (f', Some b) /\
    has_layout b sizes /\
    if acceptable (dtype_normalize (e_me e) d) nmemb (zlen sizes)
    then exists b2, big_block_open e f' base = Ret (Some b2) /\ same_table b b2 /\ has_layout b2 sizes /\
           forall name, attr_shows (b_attrset b2) name None
    else big_block_open e f' base = Ret None.
Proof. exact create_open_shows. Qed.

Theorem C18_created_reopens_refuted : exists e f base d nmemb sizes f' b,
  block_name base /\ block_dir f base /\ layout_ok sizes /\
  big_block_create e f base (Some d) nmemb (zlen sizes) sizes = Ret (f', Some b) /\
  big_block_open e f' base = Ret None.
Proof.
  destruct (create_open ex_e ex_f ex_base (lit "S32") 1 [1]) as (f' & b & E & _ & O);
    try (exact ex_name || exact ex_dir || reflexivity || lia).
  - split; [|split]; [repeat constructor; lia|reflexivity|reflexivity].
  - repeat constructor; discriminate.
  - exists ex_e, ex_f, ex_base, (lit "S32"), 1, [1], f', b.
    split; [exact ex_name|]. split; [exact ex_dir|]. split; [|split; [exact E|exact O]].
    split; [|split]; [repeat constructor; lia|reflexivity|reflexivity].
Qed.

Example C18_example : block_name ex_base /\ block_dir ex_f ex_base /\ layout_ok ex_sizes /\
  acceptable (dtype_normalize LE (lit "f4")) 3 (zlen ex_sizes) = true.
Proof.
  split; [exact ex_name|]. split; [exact ex_dir|]. split; [|reflexivity].
  split; [|split]; [repeat constructor; lia|reflexivity|reflexivity].
Qed.

(* ------------------------------------------------------------------ C19 *)
Theorem C19_normalise : forall me,
  (forall r, dtype_normalize me ("<"%byte :: r) = "<"%byte :: firstn 6 r) /\
  (forall r, dtype_normalize me (">"%byte :: r) = ">"%byte :: firstn 6 r) /\
  (forall r, dtype_normalize me ("="%byte :: r) = machine_char me :: firstn 6 r) /\
  (forall r, dtype_normalize me ("|"%byte :: r) = machine_char me :: firstn 6 r) /\
  (forall c r, c <> "<"%byte -> c <> ">"%byte -> c <> "="%byte -> c <> "|"%byte ->
     dtype_normalize me (c :: r) = machine_char me :: firstn 6 (c :: r)) /\
  dtype_normalize me [] = [machine_char me].
Proof. exact normalize_cases. Qed.

Theorem C19_canonical : forall me me' s,
  (length (dtype_normalize me s) <= 7)%nat /\
  dtype_normalize me' (dtype_normalize me s) = dtype_normalize me s /\
  itemsize me' (dtype_normalize me s) = itemsize me s /\
  dtype_kind me' (dtype_normalize me s) = dtype_kind me s.
Proof. exact normalize_canonical. Qed.

Example C19_example : dtype_normalize LE (lit "f8") = lit "<f8" /\ dtype_normalize BE (lit "|f8") = lit ">f8" /\
  itemsize LE (lit "c16") = 16 /\ dtype_kind BE (lit "<u4") = "u"%byte.
Proof. repeat split. Qed.

(* ------------------------------------------------------------------ C35 *)
(* w bytes per row. *)
Theorem C35_grow : forall f b sizes gs w, has_layout b sizes -> block_dir f (b_base b) -> layout_ok (sizes ++ gs) -> 0 < w ->
  exists f' b', big_block_grow f b (zlen gs) gs = Ret (0, f', b') /\
    has_layout b' (sizes ++ gs) /\ b_size b' = b_size b + zsum gs /\
    b_dtype b' = b_dtype b /\ b_nmemb b' = b_nmemb b /\ b_base b' = b_base b /\
    b_attrset b' = b_attrset b /\
    (forall i, (i < length sizes)%nat -> nth_error (b_fchecksum b') i = nth_error (b_fchecksum b) i) /\
    (forall r, 0 <= r < zsum sizes -> stored_row f' (b_base b) (sizes ++ gs) w r = stored_row f (b_base b) sizes w r) /\
    (forall r, zsum sizes <= r -> stored_row f' (b_base b) (sizes ++ gs) w r = None) /\
    only_changes f f' (fun p => exists j, zlen sizes <= j < zlen sizes + zlen gs /\ p = data_path (b_base b) j).
Proof. exact grow_all. Qed.

(* The growth persists: grow an open block, flush, reopen. *)
Theorem C35_grow_persists : forall e f b0 b sizes gs, has_layout b sizes -> block_name (b_base b) ->
  block_dir f (b_base b) -> big_block_open e f (b_base b) = Ret (Some b0) ->
  header_type (b_dtype b) -> 0 <= b_nmemb b < 2 ^ 31 -> as_dirty (b_attrset b) = false ->
  layout_ok (sizes ++ gs) -> zlen (sizes ++ gs) <= 2 ^ 24 ->
  exists f1 b1 f2 b2 b3, big_block_grow f b (zlen gs) gs = Ret (0, f1, b1) /\
    big_block_flush e f1 b1 = Ret (0, f2, b2) /\ big_block_open e f2 (b_base b) = Ret (Some b3) /\
    same_table b1 b3 /\ has_layout b3 (sizes ++ gs) /\ b_attrset b3 = b_attrset b0.
Proof. exact grow_persists. Qed.

Example C35_example : has_layout ex_b ex_sizes /\ block_dir ex_fh (b_base ex_b) /\ layout_ok (ex_sizes ++ [4; 0]) /\
  header_type (b_dtype ex_b) /\ (exists b0, big_block_open ex_e ex_fh (b_base ex_b) = Ret (Some b0)).
Proof.
  split; [apply ex_layout|]. split; [exact ex_dirh|]. split; [|split; [exact ex_type|exact ex_open]].
  split; [|split]; [repeat constructor; lia|reflexivity|reflexivity].
Qed.

(* ------------------------------------------------------------------ C36 *)
(* f may hold anything, also an older block of the same name; there is no
   legacy attribute file. The new block has no rows and no attributes, in the
   handle and after reopening. *)
Theorem C36_create_over_partial : forall e f base d nmemb sizes w,
  block_name base -> block_dir f base -> layout_ok sizes -> 0 < w ->
  fs_get f (attr1_path base) = None ->
  header_type (dtype_normalize (e_me e) d) -> 0 <= nmemb < 2 ^ 31 -> zlen sizes <= 2 ^ 24 ->
  exists f' b b2, big_block_create e f base (Some d) nmemb (zlen sizes) sizes = Ret (f', Some b) /\
    big_block_open e f' base = Ret (Some b2) /\
    has_layout b sizes /\ has_layout b2 sizes /\
    (forall r, stored_row f' base sizes w r = None) /\
    (forall name, attr_shows (b_attrset b) name None) /\
    (forall name, attr_shows (b_attrset b2) name None) /\
    only_changes f f' (fun p => p = header_path base \/ p = attr2_path base \/
       exists j, 0 <= j < zlen sizes /\ p = data_path base j).
Proof. exact create_over. Qed.

(* With a legacy attribute file the old attributes come back on reopening. *)
Definition ex_v1 : bytes := [x01; x00; x00; x00; x01; x00; x00; x00] ++ lit "<i1" ++ repeat x00 5 ++ lit "A" ++ [x07].
Definition ex_fv1 : fs := fs_set ex_f [lit "d"; lit "blk"; lit "attr"] (File ex_v1).
Lemma ex_dirv1 : block_dir ex_fv1 ex_base.
Proof. apply ex_dir_gen; [vm_compute; auto|reflexivity|]. intros p H. repeat (destruct H as [H|H]; [injection H as <-; simpl; lia || discriminate|]); destruct H. Qed.
Theorem C36_create_over_refuted : exists e f base d nmemb sizes f' b b2 v,
  block_name base /\ block_dir f base /\ layout_ok sizes /\
  big_block_create e f base (Some d) nmemb (zlen sizes) sizes = Ret (f', Some b) /\
  big_block_open e f' base = Ret (Some b2) /\
  attr_shows (b_attrset b2) (lit "A") (Some v).
Proof.
  assert (H : match big_block_create ex_e ex_fv1 ex_base (Some (lit "i4")) 1 1 [1] with
     | Ret (f', Some b) => match big_block_open ex_e f' ex_base with
        | Ret (Some b2) => match attrset_lookup_attr (b_attrset b2) (lit "A") with
            | Ret (Some a) => at_dtype a = lit "<i1" /\ at_nmemb a = 1 /\ load (as_mem (b_attrset b2)) (at_data a) 1 = Some [x07]
            | _ => False end
        | _ => False end
     | _ => False end) by (vm_compute; auto).
  destruct (big_block_create ex_e ex_fv1 ex_base (Some (lit "i4")) 1 1 [1]) as [[f' [b|]]|u|] eqn:E1; try contradiction.
  destruct (big_block_open ex_e f' ex_base) as [[b2|]|u|] eqn:E2; try contradiction.
  destruct (attrset_lookup_attr (b_attrset b2) (lit "A")) as [[a|]|u|] eqn:E3; try contradiction.
  destruct H as (H1 & H2 & H3).
  exists ex_e, ex_fv1, ex_base, (lit "i4"), 1, [1], f', b, b2, (mkAval (lit "<i1") 1 [x07]).
  split; [exact ex_name|]. split; [exact ex_dirv1|].
  split; [split; [|split]; [repeat constructor; lia|reflexivity|reflexivity]|].
  split; [exact E1|]. split; [exact E2|]. exists a. auto.
Qed.

Example C36_example : block_dir ex_fh ex_base /\ header_type (dtype_normalize LE (lit "i4")) /\
  stored_row ex_f1 ex_base ex_sizes 8 2 <> None.
Proof.
  split; [exact ex_dirh|]. split; [|vm_compute; discriminate].
  split; [reflexivity|]. split; [simpl; lia|]. repeat constructor; discriminate.
Qed.

Definition all_Header := (@C15_header_round_trip, @C16_open_result, @C16_open_safe_partial, @C16_open_safe_refuted,
  @C16_negative_size_refuted, @C17_header_crash, @C18_created_reopens_partial, @C18_created_reopens_refuted,
  @C19_normalise, @C19_canonical, @C35_grow, @C35_grow_persists, @C36_create_over_partial, @C36_create_over_refuted).
Print Assumptions all_Header.
