(* Properties C38, C39, C50, C51, C62: records, listings, directories, and
   which files an operation touches. *)
From Coq.Strings Require Import Byte String.
From Coq Require Import List ZArith Lia Bool.
From Verif Require Import Base BaseFacts Dtype Cast Array FS Fmt Attr Block File Record Spec AttrSpec OpenSpec HistSpec FileSpec RecSpec
  FSFacts WriteFacts IOFacts OpenFacts HistFacts FrameFacts FileFacts ListFacts RecFacts RecIOFacts RecNewFacts Ex PropsHeader PropsHist.
Import ListNotations.
Open Scope Z_scope.

(* ------------------------------------------------------------------ examples *)
(* A position of three f8 and an identifier, 28 bytes. *)
Definition ex_rt0 : rtype :=
  mkRtype [mkField (Some (lit "Pos")) (lit "f8") 3 0 0; mkField (Some (lit "gas/ID")) (lit ">i4") 1 0 0] 0.
Definition ex_rt : rtype :=
  mkRtype [mkField (Some (lit "Pos")) (lit "f8") 3 0 8; mkField (Some (lit "gas/ID")) (lit ">i4") 1 24 4] 28.
Definition ex_re : env := ex_env LE 64.
Lemma ex_packed : packed ex_rt.
Proof.
  constructor; [reflexivity|repeat constructor; discriminate|]. intros k fd H.
  do 2 (destruct k as [|k]; [injection H as <-; reflexivity|]). destruct k; discriminate.
Qed.
Lemma ex_ht d : dtype_isvalid d = true -> (length d <= 7)%nat -> forallb (fun c => negb (is_space c) && negb (Byte.eqb c x00)) d = true -> header_type d.
Proof.
  intros H1 H2 H3. split; [exact H1|]. split; [exact H2|]. apply Forall_forall. intros c Hc. rewrite forallb_forall in H3. specialize (H3 c Hc).
  apply andb_prop in H3. destruct H3 as [A B]. split; [destruct (is_space c); auto; discriminate|]. intros ->. discriminate.
Qed.
Lemma ex_kind : rec_kind ex_re (lit "d") ex_rt.
Proof.
  constructor.
  - exact ex_packed.
  - discriminate.
  - intros k fd H. destruct k as [|k]; [injection H as <-; exists (lit "Pos")|destruct k as [|k]; [injection H as <-; exists (lit "gas/ID")|destruct k; discriminate]].
    + constructor; try reflexivity; try (split; reflexivity); try discriminate.
      * split; [reflexivity|]. split; [|reflexivity]. apply Nat.leb_le. vm_compute. reflexivity.
      * cbn. lia.
      * apply ex_ht; [reflexivity|cbn; lia|reflexivity].
    + constructor; try reflexivity; try (split; reflexivity); try discriminate.
      * split; [reflexivity|]. split; [|reflexivity]. apply Nat.leb_le. vm_compute. reflexivity.
      * cbn. lia.
      * apply ex_ht; [reflexivity|cbn; lia|reflexivity].
  - intros i j fi fj ni nj Hij Hi Hj Hni Hnj.
    destruct i as [|[|i]]; destruct j as [|[|j]]; try congruence; try (destruct i; discriminate); try (destruct j; discriminate);
      injection Hi as <-; injection Hj as <-; injection Hni as <-; injection Hnj as <-; intros [r Hr]; discriminate Hr.
Qed.
(* 84 bytes at 100 hold three records. *)
Definition ex_recs : list bytes :=
  map (fun j => match load ex_um (100 + Z.of_nat j * 28) 28 with Some v => v | None => [] end) (seq 0 3).
Lemma ex_recs_at : recs_at ex_rt ex_um 100 3 ex_recs.
Proof.
  split; [reflexivity|]. intros j v H. do 3 (destruct j as [|j]; [injection H as <-; reflexivity|]). destruct j; discriminate.
Qed.
Lemma ex_counts n : 0 < n < 1000 -> counts_ok ex_rt n.
Proof. intros H. split; [lia|]. change (2 ^ 63) with 9223372036854775808. intros fd [<-|[<-|[]]]; cbn; lia. Qed.

Lemma no_header_dir f base : forall L, (forall p, fs_get f p = Some Dir -> (length p < L)%nat) -> (L <= S (length (resolve base)))%nat ->
  forall p, own_file base p -> fs_get f p <> Some Dir.
Proof.
  intros L H HL p Hp X. apply H in X. destruct (in_block_app base p (or_introl Hp)) as (c & ->). rewrite app_length in X. cbn in X. lia.
Qed.
Lemma find_dirs f L : forallb (fun '(p, n) => match n with Dir => (length p <? L)%nat | _ => true end) f = true -> (1 < L)%nat ->
  forall p, fs_get f p = Some Dir -> (length p < L)%nat.
Proof.
  intros H HL p Hp. assert (HF : fs_find f p = Some Dir -> (length p < L)%nat).
  { clear Hp. induction f as [|[q n] f IH]; [discriminate|]. cbn [fs_find]. cbn [forallb] in H. apply andb_prop in H. destruct H as [H1 H2].
    destruct (path_eqb q p) eqn:E; [|auto]. intros [= ->]. apply path_eqb_eq in E. subst. apply Nat.ltb_lt. exact H1. }
  destruct p as [|c p]; [cbn; lia|]. destruct p as [|c' p]; [cbn; lia|]. apply HF. exact Hp.
Qed.

(* ------------------------------------------------------------------ C38 *)
(* Adding a field appends it and returns its number; completing lays the
   fields one after the other. *)
Theorem C38_add : forall rt name dtype nmemb, exists fd,
  rtype_add rt name dtype nmemb = Ret (zlen (rt_fields rt), mkRtype (rt_fields rt ++ [fd]) (rt_itemsize rt)) /\
  rf_name fd = Some (strdup name) /\ rf_dtype fd = firstn 8 dtype /\ rf_nmemb fd = nmemb.
Proof. exact add_spec. Qed.
Theorem C38_complete : forall me rt, Forall (field_ok me) (rt_fields rt) -> zsum (map (width me) (rt_fields rt)) < 2 ^ 31 ->
  exists rt', rtype_complete me rt = Ret rt' /\ packed rt' /\ length (rt_fields rt') = length (rt_fields rt) /\
    forall k fd, nth_error (rt_fields rt) k = Some fd -> exists fd', nth_error (rt_fields rt') k = Some fd' /\
      rf_name fd' = rf_name fd /\ rf_dtype fd' = rf_dtype fd /\ rf_nmemb fd' = rf_nmemb fd /\
      rf_elsize fd' = itemsize me (rf_dtype fd).
Proof. exact complete_packed. Qed.
Theorem C38_disjoint : forall rt buf i i' c c' fd fd', packed rt ->
  nth_error (rt_fields rt) c = Some fd -> nth_error (rt_fields rt) c' = Some fd' -> (i, c) <> (i', c') ->
  slot rt buf i fd + fwidth fd <= slot rt buf i' fd' \/ slot rt buf i' fd' + fwidth fd' <= slot rt buf i fd.
Proof. exact slots_disjoint. Qed.
(* Setting a field: it holds the new value, no other byte of memory changes. *)
Theorem C38_set : forall rt m buf i c fd data l, packed rt -> nth_error (rt_fields rt) c = Some fd ->
  load m data (Z.to_nat (fwidth fd)) = Some l ->
  (forall x, slot rt buf i fd <= x < slot rt buf i fd + fwidth fd -> m x <> None) ->
  exists m', record_set rt m buf i (Z.of_nat c) data = Ret m' /\
    load m' (slot rt buf i fd) (Z.to_nat (fwidth fd)) = Some l /\
    forall x, ~ (slot rt buf i fd <= x < slot rt buf i fd + fwidth fd) -> m' x = m x.
Proof. exact record_set_spec. Qed.
Theorem C38_get : forall rt m buf i c fd data l, packed rt -> nth_error (rt_fields rt) c = Some fd ->
  load m (slot rt buf i fd) (Z.to_nat (fwidth fd)) = Some l ->
  (forall x, data <= x < data + fwidth fd -> m x <> None) ->
  exists m', record_get rt m buf i (Z.of_nat c) data = Ret m' /\
    load m' data (Z.to_nat (fwidth fd)) = Some l /\
    forall x, ~ (data <= x < data + fwidth fd) -> m' x = m x.
Proof. exact record_get_spec. Qed.
(* No other field of any row changes. *)
Theorem C38_others : forall rt m m' buf i c fd i' c' fd', packed rt ->
  nth_error (rt_fields rt) c = Some fd -> nth_error (rt_fields rt) c' = Some fd' -> (i, c) <> (i', c') ->
  (forall x, ~ (slot rt buf i fd <= x < slot rt buf i fd + fwidth fd) -> m' x = m x) ->
  load m' (slot rt buf i' fd') (Z.to_nat (fwidth fd')) = load m (slot rt buf i' fd') (Z.to_nat (fwidth fd')).
Proof. exact record_set_others. Qed.
Example C38_example : rtype_complete LE ex_rt0 = Ret ex_rt /\ Forall (field_ok LE) (rt_fields ex_rt0) /\ packed ex_rt /\
  load ex_um 500 4 <> None /\
  forall x, slot ex_rt 100 2 (mkField (Some (lit "gas/ID")) (lit ">i4") 1 24 4) <= x < 184 -> ex_um x <> None.
Proof.
  split; [reflexivity|]. split; [repeat constructor; cbn; try lia; discriminate|]. split; [exact ex_packed|]. split; [discriminate|].
  intros x Hx. cbn in Hx. unfold ex_um. replace (0 <=? x) with true by lia. replace (x <? 2000) with true by lia. discriminate.
Qed.

(* ------------------------------------------------------------------ C39 *)
(* Creating the records of a file succeeds, and every sequence of writing,
   reading and appending records acts on one table of records: writing
   replaces whole records, reading returns them, beyond the end both fail. *)
Theorem C39_records : forall e bf rt f sizes os, rec_kind e bf rt -> new_records e bf rt f sizes -> rops_ok rt sizes os ->
  exists xs f' T, create_records_and_run e f bf rt sizes os = Ret (0, (xs, f')) /\
    rspecs (e_me e) rt (new_table sizes) os xs T.
Proof. exact (fun e bf rt f sizes os K => records_run e bf rt K f sizes os). Qed.
(* In particular: what was written is read back, into any buffer, and nothing
   outside the buffer changes. *)
Theorem C39_round_trip : forall e bf rt f sizes o n buf um recs buf2 um2, rec_kind e bf rt -> new_records e bf rt f sizes ->
  0 <= o -> o + n <= zsum sizes -> counts_ok rt n -> recs_at rt um buf n recs ->
  (forall x, buf2 <= x < buf2 + n * rt_itemsize rt -> um2 x <> None) ->
  exists um1 um3 f', create_records_and_run e f bf rt sizes [RWrite o n buf um; RRead o n buf2 um2] =
      Ret (0, ([(0, Some um1); (0, Some um3)], f')) /\
    left_by_write (e_me e) rt um um1 buf n /\ recs_at rt um3 buf2 n recs /\
    forall x, ~ (buf2 <= x < buf2 + n * rt_itemsize rt) -> um3 x = um2 x.
Proof. exact records_round_trip. Qed.
Example C39_example : rec_kind ex_re (lit "d") ex_rt /\ new_records ex_re (lit "d") ex_rt ex_f1 ex_sizes /\
  rops_ok ex_rt ex_sizes [RWrite 1 3 100 ex_um; RRead 0 4 1000 ex_um; RAppend [2; 2]; RWrite 6 3 100 ex_um; RRead 6 3 1000 ex_um].
Proof.
  split; [exact ex_kind|]. split.
  - assert (HD : forall p, fs_get ex_f1 p = Some Dir -> (length p < 3)%nat) by (apply find_dirs; [reflexivity|lia]).
    constructor; [exact ex_lay1|ex_neg| |].
    + intros q [r Hq]. destruct q as [|c q]; [reflexivity|]. injection Hq as <- Hq. destruct q; [reflexivity|discriminate].
    + assert (HW : forall a b, (forall q c, prefix_of q (a :: b) -> fs_get ex_f1 q <> Some (File c)) -> way_free ex_f1 (a :: b)) by auto.
      intros k fd nm Hk Hn. destruct k as [|[|k]]; [| |destruct k; discriminate]; injection Hk as <-; injection Hn as <-.
      * split; [intros q c [r Hq]; destruct q as [|q1 [|q2 [|q3 q]]]; try discriminate Hq; try (intros X; discriminate X); injection Hq; intros; subst; try discriminate|].
        split; [discriminate|]. split; [discriminate|]. split; [|reflexivity].
        intros i Hi. apply (no_header_dir ex_f1 (path_join (lit "d") (lit "Pos")) 3 HD); [cbn; lia|]. right. right. eauto.
      * split; [intros q c [r Hq]; destruct q as [|q1 [|q2 [|q3 [|q4 q]]]]; try discriminate Hq; try (intros X; discriminate X); injection Hq; intros; subst; try discriminate|].
        split; [discriminate|]. split; [discriminate|]. split; [|reflexivity].
        intros i Hi. apply (no_header_dir ex_f1 (path_join (lit "d") (lit "gas/ID")) 3 HD); [cbn; lia|]. right. right. eauto.
  - assert (HM : forall a b x, 0 <= a -> b <= 2000 -> a <= x < b -> ex_um x <> None).
    { intros a b x Ha Hb Hx. unfold ex_um. replace (0 <=? x) with true by lia. replace (x <? 2000) with true by lia. discriminate. }
    repeat split; try apply ex_counts; try lia; try (exists ex_recs; apply ex_recs_at); try (intros x Hx; cbn in Hx; eapply HM; [| |exact Hx]; lia);
      try reflexivity; try ex_neg.
    repeat constructor; ex_neg.
Qed.

(* ------------------------------------------------------------------ C50 *)
(* Listing returns, each once, the names of the blocks such that no name on
   the way begins with a dot and no directory on the way is itself a block. *)
Theorem C50_listing_partial : forall f bf, tree f -> bf <> [] ->
  (forall cs, shown f (resolve bf) cs -> (length (slashed cs) <= Z.to_nat 8192)%nat) ->
  exists l, big_file_list f bf = Ret l /\ NoDup l /\
    forall s, In s l <-> exists cs, shown f (resolve bf) cs /\ s = slashed cs.
Proof. exact list_spec. Qed.
(* In full it is false: a block inside another block can be opened but is not
   listed; neither is one whose name begins with a dot; and a directory in
   which something else is called "header" is listed but cannot be opened. *)
Definition ex_tree (l : list (path * node)) : fs := ([lit "d"], Dir) :: l.
Definition ex_nested : fs := ex_tree
  [([lit "d"; lit "a"], Dir); ([lit "d"; lit "a"; lit "header"], File ex_hdr);
   ([lit "d"; lit "a"; lit "b"], Dir); ([lit "d"; lit "a"; lit "b"; lit "header"], File ex_hdr)].
Definition ex_hidden : fs := ex_tree [([lit "d"; lit ".a"], Dir); ([lit "d"; lit ".a"; lit "header"], File ex_hdr)].
Definition ex_false : fs := ex_tree [([lit "d"; lit "a"], Dir); ([lit "d"; lit "a"; lit "header"], Dir)].
Definition opens (e : env) (f : fs) (bf name : bytes) : Prop := exists b, big_file_open_block e f bf name = Ret (Some b).
Theorem C50_nested_refuted : exists e f bf name l, tree f /\ opens e f bf name /\ big_file_list f bf = Ret l /\ ~ In name l.
Proof.
  exists ex_e, ex_nested, (lit "d"), (lit "a/b"), [lit "a"]. split; [apply tree_check; reflexivity|]. split; [|split; [reflexivity|]].
  - assert (H : match big_file_open_block ex_e ex_nested (lit "d") (lit "a/b") with Ret (Some _) => True | _ => False end) by (vm_compute; exact I).
    unfold opens. destruct (big_file_open_block ex_e ex_nested (lit "d") (lit "a/b")) as [[b0|]|u|]; try contradiction. eauto.
  - intros [H|[]]. discriminate H.
Qed.
Theorem C50_hidden_refuted : exists e f bf name, tree f /\ opens e f bf name /\ big_file_list f bf = Ret [].
Proof.
  exists ex_e, ex_hidden, (lit "d"), (lit ".a"). split; [apply tree_check; reflexivity|]. split; [|reflexivity].
  assert (H : match big_file_open_block ex_e ex_hidden (lit "d") (lit ".a") with Ret (Some _) => True | _ => False end) by (vm_compute; exact I).
  unfold opens. destruct (big_file_open_block ex_e ex_hidden (lit "d") (lit ".a")) as [[b0|]|u|]; try contradiction. eauto.
Qed.
Theorem C50_only_blocks_refuted : exists e f bf name, tree f /\ big_file_list f bf = Ret [name] /\ ~ opens e f bf name.
Proof.
  exists ex_e, ex_false, (lit "d"), (lit "a"). split; [apply tree_check; reflexivity|]. split; [reflexivity|].
  intros [b H]. vm_compute in H. discriminate H.
Qed.
Example C50_example : tree ex_fh /\ shown ex_fh (resolve (lit "d")) [lit "blk"] /\ big_file_list ex_fh (lit "d") = Ret [lit "blk"].
Proof.
  split; [apply tree_check; reflexivity|]. split; [|reflexivity]. apply shown_one. split; [|discriminate].
  split; [split; [reflexivity|cbn; intuition discriminate]|discriminate].
Qed.

(* ------------------------------------------------------------------ C51 *)
(* Whatever the outcome: nothing existing changes, and only directories
   leading to the requested path are new. *)
Theorem C51_keeps : forall f p s rc f', (length s <= Z.to_nat 8192)%nat -> mksubdir_r f p s = (rc, f') ->
  only_new_dirs f f' (resolve (path_join p s)) /\ (rc = 0 \/ rc = -1).
Proof. exact mksubdir_new. Qed.
(* If the starting directory exists and no regular file is in the way, all
   directories exist afterwards. *)
Theorem C51_makes : forall f p s, (length s <= Z.to_nat 8192)%nat -> path_join p s <> [] -> way_made f (resolve p) ->
  way_free f (resolve (path_join p s)) ->
  exists f', mksubdir_r f p s = (0, f') /\ way_made f' (resolve (path_join p s)).
Proof. exact mksubdir_succeeds. Qed.
Theorem C51_again : forall f p s f', mksubdir_r f p s = (0, f') -> mksubdir_r f' p s = (0, f').
Proof. exact mksubdir_again. Qed.
Theorem C51_create_file : forall f s, (length s <= Z.to_nat 8192)%nat -> s <> [] -> way_free f (resolve s) ->
  exists f', big_file_create f s = (f', Some s) /\ way_made f' (resolve s) /\ only_new_dirs f f' (resolve s) /\
    big_file_create f' s = (f', Some s) /\ big_file_open f' s = Some s.
Proof. exact create_file_spec. Qed.
(* Creating a block; repeating it is possible, as creatable holds again. *)
Theorem C51_create_block : forall e f bf nm d nmemb sizes, let base := path_join bf nm in
  block_name base -> layout_ok sizes -> way_made f (resolve bf) -> creatable f base ->
  exists f' b, big_file_create_block e f bf nm (Some d) nmemb (zlen sizes) sizes = Ret (f', Some b) /\
    way_made f' (resolve base) /\ way_made f' (resolve bf) /\ creatable f' base /\
    (forall q n, ~ own_file base q -> fs_get f q = Some n -> fs_get f' q = Some n) /\
    (forall q n, ~ own_file base q -> fs_get f q = None -> fs_get f' q = Some n -> n = Dir /\ prefix_of q (resolve base)).
Proof. exact create_block_spec. Qed.
(* But a regular file in the last place is taken for the directory. *)
Theorem C51_file_in_place_refuted : exists f s f', big_file_create f s = (f', Some s) /\ fs_get f' (resolve s) <> Some Dir.
Proof. exists [([lit "d"], File [])], (lit "d"), [([lit "d"], File [])]. split; [reflexivity|discriminate]. Qed.
Example C51_example : way_made ex_f1 (resolve (lit "./d/")) /\ way_free ex_f1 (resolve (path_join (lit "./d/") (lit "x//y/./z"))) /\
  snd (mksubdir_r ex_f1 (lit "./d/") (lit "x//y/./z")) =
    fs_set (fs_set (fs_set ex_f1 [lit "d"; lit "x"] Dir) [lit "d"; lit "x"; lit "y"] Dir) [lit "d"; lit "x"; lit "y"; lit "z"] Dir /\
  block_name (path_join (lit "d") (lit "x/y")) /\ creatable ex_f1 (path_join (lit "d") (lit "x/y")).
Proof.
  assert (HD : forall p, fs_get ex_f1 p = Some Dir -> (length p < 3)%nat) by (apply find_dirs; [reflexivity|lia]).
  split; [|split; [|split; [|split]]].
  - intros q [r Hq]. destruct q as [|c q]; [reflexivity|]. injection Hq as <- Hq. destruct q; [reflexivity|discriminate].
  - intros q c [r Hq]. destruct q as [|q1 [|q2 [|q3 [|q4 [|q5 q]]]]]; try discriminate Hq; try (intros X; discriminate X); injection Hq; intros; subst; try discriminate.
  - reflexivity.
  - split; [reflexivity|]. split; [|reflexivity]. apply Nat.leb_le. vm_compute. reflexivity.
  - split; [|apply (no_header_dir _ _ 3 HD); cbn; lia].
    intros q c [r Hq]. destruct q as [|q1 [|q2 [|q3 [|q4 q]]]]; try discriminate Hq; try (intros X; discriminate X); injection Hq; intros; subst; try discriminate.
Qed.

(* ------------------------------------------------------------------ C62 *)
(* Whatever the state of the handle and the outcome, operations on a block
   change only the block's header, attribute and data files. *)
Theorem C62_write : forall e f b p a um rc f' b' p' um',
  big_block_write e f b p a um = Ret (rc, f', b', p', um') -> only_changes f f' (own_file (b_base b)).
Proof. exact (fun e f b p a um rc f' b' p' um' H => proj1 (write_frames e f b p a um rc f' b' p' um' H)). Qed.
Theorem C62_flush : forall e f b rc f' b', big_block_flush e f b = Ret (rc, f', b') -> only_changes f f' (own_file (b_base b)).
Proof. exact (fun e f b rc f' b' H => proj1 (flush_frames e f b rc f' b' H)). Qed.
Theorem C62_close : forall e f b rc f', big_block_close e f b = Ret (rc, f') -> only_changes f f' (own_file (b_base b)).
Proof. exact close_frames. Qed.
Theorem C62_grow : forall f b n gs rc f' b', 0 <= b_Nfile b -> big_block_grow f b n gs = Ret (rc, f', b') ->
  only_changes f f' (own_file (b_base b)).
Proof. exact (fun f b n gs rc f' b' Hn H => proj1 (grow_frames f b n gs rc f' b' Hn H)). Qed.
Theorem C62_create : forall e f base d nmemb n sizes f' ob, (length base <= Z.to_nat 8192)%nat ->
  big_block_create e f base d nmemb n sizes = Ret (f', ob) -> only_changes f f' (own_file base).
Proof. exact create_frames. Qed.
(* So nothing outside the block's directory changes. *)
Theorem C62_elsewhere : forall base f f' p, only_changes f f' (own_file base) -> parent p <> resolve base ->
  fs_get f' p = fs_get f p.
Proof. exact frames_outside. Qed.
Example C62_example : exists f' b', big_block_grow ex_f1 ex_b 1 [7] = Ret (0, f', b') /\
  fs_get ex_f1 (data_path ex_base 3) = None /\ fs_get f' (data_path ex_base 3) = Some (File []) /\
  parent [lit "d"; lit "blk"] <> resolve ex_base.
Proof. eexists _, _. split; [reflexivity|]. split; [reflexivity|]. split; [reflexivity|discriminate]. Qed.

Definition all_File := (@C38_add, @C38_complete, @C38_disjoint, @C38_set, @C38_get, @C38_others, @C39_records, @C39_round_trip,
  @C50_listing_partial, @C50_nested_refuted, @C50_hidden_refuted, @C50_only_blocks_refuted,
  @C51_keeps, @C51_makes, @C51_again, @C51_create_file, @C51_create_block, @C51_file_in_place_refuted,
  @C62_write, @C62_flush, @C62_close, @C62_grow, @C62_create, @C62_elsewhere).
Print Assumptions all_File.
