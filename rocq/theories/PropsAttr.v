(* Properties C26 - C33: attributes. *)
From Coq.Strings Require Import Byte String.
From Coq Require Import List ZArith Lia Bool.
From Verif Require Import Base BaseFacts Dtype Cast Array FS Fmt Attr Block Spec AttrSpec OpenSpec SessSpec AttrFileSpec
  FSFacts DtypeFacts AttrFacts OpenFacts ReopenFacts SessFacts AttrFileFacts Ex PropsHeader.
Import ListNotations.
Open Scope Z_scope.

(* ------------------------------------------------------------------ examples *)
Definition ex_val (l : bytes) : mem := mem_of 500 l.
Definition ex_aops : list aop :=
  [ASet (lit "mass") (ex_val [x01; x02; x03; x04; x05; x06; x07; x08]) 500 (lit "i4") 2;
   ASet (lit "Box") (ex_val [x09; x00; x00; x00]) 500 (lit "<u4") 1;
   ASet (lit "mass") (ex_val (lit "abc")) 500 (lit "S1") 3;
   ASet (lit "a b") (ex_val (lit "abc")) 500 (lit "S1") 3;
   ARemove (lit "Box"); ARemove (lit "none");
   ASet (lit "t") (ex_val [x01; x02; x03; x04; x05; x06; x07; x08]) 500 (lit "<i4") 2].
Lemma not_in_dec (c : byte) l : existsb (Byte.eqb c) l = false -> ~ In c l.
Proof. intros H Hi. assert (existsb (Byte.eqb c) l = true) by (apply existsb_exists; exists c; split; auto; apply byte_eqb_refl). congruence. Qed.
Ltac nd := let H := fresh in intro H; discriminate H.
Ltac legal := first [ split; [apply not_in_dec; reflexivity|split; [reflexivity|split; [nd|split; [reflexivity|eexists; reflexivity]]]] | apply not_in_dec; reflexivity ].
Ltac each t := repeat first [apply Forall_nil | apply Forall_cons; [t|]].
Lemma ex_aops_ok : Forall (aop_ok LE) ex_aops.
Proof. unfold ex_aops. each legal. Qed.

(* ------------------------------------------------------------------ C26 *)
(* aspecs is the finite-map specification of AttrSpec.v. *)
Theorem C26_attribute_map : forall ra me base os,
  Forall (aop_ok me) os -> zsum (map (aop_size me) os) <= 2 ^ 61 ->
  exists s, arun ra me (attrset_create base) os = Ret (fst (aspecs me no_attrs os), s) /\
    (forall name, attr_shows s name (snd (aspecs me no_attrs os) name)) /\
    exists names, attr_names s = Ret names /\ sorted_names names /\
      forall name, In name names <-> snd (aspecs me no_attrs os) name <> None.
Proof. exact attrs_map. Qed.

Example C26_example : Forall (aop_ok LE) ex_aops /\ zsum (map (aop_size LE) ex_aops) <= 2 ^ 61 /\
  fst (aspecs LE no_attrs ex_aops) = [0; 0; 0; -1; 0; -1; 0] /\
  snd (aspecs LE no_attrs ex_aops) (lit "mass") = Some (mkAval (lit "<S1") 3 (lit "abc")) /\
  snd (aspecs LE no_attrs ex_aops) (lit "Box") = None.
Proof. split; [exact ex_aops_ok|]. vm_compute. repeat split; auto; discriminate. Qed.

(* ------------------------------------------------------------------ C27 *)
(* No out of bounds access whatever addresses malloc and realloc return: every
   sequence returns, and a further growth of the buffer, moving it anywhere,
   keeps every name and value and makes room. *)
Theorem C27_memory_safe : forall ra ra' me base os size, Forall (aop_ok me) os ->
  0 <= size -> zsum (map (aop_size me) os) + size <= 2 ^ 61 ->
  exists s s', arun ra me (attrset_create base) os = Ret (fst (aspecs me no_attrs os), s) /\
    grow_buf ra' s size 64 = Ret s' /\ as_bufused s' + size <= as_bufsize s' /\
    attr_names s' = attr_names s /\
    (forall name, attr_shows s name (snd (aspecs me no_attrs os) name) /\
                  attr_shows s' name (snd (aspecs me no_attrs os) name)).
Proof. exact attrs_move. Qed.

Example C27_example : Forall (aop_ok LE) ex_aops /\ zsum (map (aop_size LE) ex_aops) + 5000 <= 2 ^ 61.
Proof. split; [exact ex_aops_ok|]. vm_compute. discriminate. Qed.

(* ------------------------------------------------------------------ C28 *)
(* The value has the machine's byte order: the get delivers the converted
   value and leaves the set as it was, so it can be repeated; a get of an
   absent name or with the wrong length fails without effect. *)
Theorem C28_get_partial : forall ra me base os,
  Forall (aop_ok me) os -> zsum (map (aop_size me) os) <= 2 ^ 61 ->
  exists s, arun ra me (attrset_create base) os = Ret (fst (aspecs me no_attrs os), s) /\
    (forall name um data dtype n,
      match snd (aspecs me no_attrs os) name with None => True | Some v => av_nmemb v <> n end ->
      attrset_get_attr me s name um data dtype n = Ret (-1, s, um)) /\
    (forall name v um data dtype vs outs, snd (aspecs me no_attrs os) name = Some v ->
      dt_native me (av_dtype v) = true -> 0 < itemsize me dtype ->
      zlen vs = av_nmemb v -> Forall (fun x => length x = Z.to_nat (itemsize me (av_dtype v))) vs -> concat vs = av_data v ->
      (forall x, data <= x < data + av_nmemb v * itemsize me dtype -> um x <> None) ->
      convertible me (av_dtype v) (dtype_normalize me dtype) ->
      Forall2 (converts me (av_dtype v) (dtype_normalize me dtype)) vs outs ->
      exists um', attrset_get_attr me s name um data dtype (av_nmemb v) = Ret (0, s, um') /\
        load um' data (Z.to_nat (av_nmemb v * itemsize me dtype)) = Some (concat outs) /\
        (forall x, ~ (data <= x < data + av_nmemb v * itemsize me dtype) -> um' x = um x)).
Proof. exact attrs_get. Qed.

Example C28_example : snd (aspecs LE no_attrs ex_aops) (lit "t") =
    Some (mkAval (lit "<i4") 2 [x01; x02; x03; x04; x05; x06; x07; x08]) /\
  dt_native LE (lit "<i4") = true /\
  convertible LE (lit "<i4") (dtype_normalize LE (lit ">i8")) /\
  Forall2 (converts LE (lit "<i4") (dtype_normalize LE (lit ">i8"))) [[x01; x02; x03; x04]; [x05; x06; x07; x08]]
    [[x00; x00; x00; x00; x04; x03; x02; x01]; [x00; x00; x00; x00; x08; x07; x06; x05]].
Proof.
  split; [reflexivity|]. split; [reflexivity|]. split; [right; discriminate|]. repeat constructor.
Qed.

(* A value of the other byte order changes each time it is read. *)
Theorem C28_get_refuted : exists me s name um data dtype n s1 u1 s2 u2,
  arun (fun a _ => a) me (attrset_create 0) [ASet name (mem_of 0 [x00; x00; x00; x07]) 0 (lit ">i4") 1] = Ret ([0], s) /\
  attrset_get_attr me s name um data dtype n = Ret (0, s1, u1) /\
  attrset_get_attr me s1 name um data dtype n = Ret (0, s2, u2) /\
  load u1 data 4 = Some [x07; x00; x00; x00] /\ load u2 data 4 = Some [x00; x00; x00; x07].
Proof.
  assert (H : match arun (fun a _ => a) LE (attrset_create 0) [ASet (lit "a") (mem_of 0 [x00; x00; x00; x07]) 0 (lit ">i4") 1] with
    | Ret (rcs, s) => rcs = [0] /\ match attrset_get_attr LE s (lit "a") (malloc_mem 0 4) 0 (lit "<i4") 1 with
       | Ret (r1, s1, u1) => r1 = 0 /\ match attrset_get_attr LE s1 (lit "a") (malloc_mem 0 4) 0 (lit "<i4") 1 with
          | Ret (r2, s2, u2) => r2 = 0 /\ load u1 0 4 = Some [x07; x00; x00; x00] /\ load u2 0 4 = Some [x00; x00; x00; x07]
          | _ => False end
       | _ => False end
    | _ => False end) by (vm_compute; auto).
  destruct (arun (fun a _ => a) LE (attrset_create 0) [ASet (lit "a") (mem_of 0 [x00; x00; x00; x07]) 0 (lit ">i4") 1]) as [[rcs s]|u|] eqn:E1; try contradiction.
  destruct H as [-> H]. destruct (attrset_get_attr LE s (lit "a") (malloc_mem 0 4) 0 (lit "<i4") 1) as [[[r1 s1] u1]|u|] eqn:E2; try contradiction.
  destruct H as [-> H]. destruct (attrset_get_attr LE s1 (lit "a") (malloc_mem 0 4) 0 (lit "<i4") 1) as [[[r2 s2] u2]|u|] eqn:E3; try contradiction.
  destruct H as [-> [H1 H2]].
  exists LE, s, (lit "a"), (malloc_mem 0 4), 0, (lit "<i4"), 1, s1, u1, s2, u2. auto.
Qed.

(* ------------------------------------------------------------------ C29 *)
(* Histories of set, remove, flush and close-and-reopen on a new block, against
   the specification of SessSpec.v (attributes of the handle, attributes on
   disk, and whether a flush is due). *)
Theorem C29_sessions : forall e f base d nmemb sizes os, g_clean e ->
  block_name base -> block_dir f base -> layout_ok sizes -> fs_get f (attr1_path base) = None ->
  header_type (dtype_normalize (e_me e) d) -> 0 <= nmemb < 2 ^ 31 -> zlen sizes <= 2 ^ 24 ->
  Forall (sop_ok (e_me e)) os -> zsum (map (sop_size (e_me e)) os) <= 2 ^ 61 ->
  exists f0 b0 f' b', big_block_create e f base (Some d) nmemb (zlen sizes) sizes = Ret (f0, Some b0) /\
    srun e (f0, b0) os = Ret (fst (sspecs (e_me e) sstart os), (f', b')) /\
    (forall name, attr_shows (b_attrset b') name (live (snd (sspecs (e_me e) sstart os)) name)) /\
    (exists names, attr_names (b_attrset b') = Ret names /\ sorted_names names /\
       forall name, In name names <-> live (snd (sspecs (e_me e) sstart os)) name <> None) /\
    same_table b0 b' /\ has_layout b' sizes.
Proof. exact sessions. Qed.

(* Without removals flush and reopen are invisible: the attributes found are
   those of the in-memory map, wherever the history is interrupted. Values are
   of the machine's byte order, not empty, with a non-empty name (durable). *)
Theorem C29_survive_partial : forall e f base d nmemb sizes os, g_clean e ->
  block_name base -> block_dir f base -> layout_ok sizes -> fs_get f (attr1_path base) = None ->
  header_type (dtype_normalize (e_me e) d) -> 0 <= nmemb < 2 ^ 31 -> zlen sizes <= 2 ^ 24 ->
  Forall (sop_ok (e_me e)) os -> zsum (map (sop_size (e_me e)) os) <= 2 ^ 61 -> Forall keeps os ->
  exists f0 b0 rcs f' b', big_block_create e f base (Some d) nmemb (zlen sizes) sizes = Ret (f0, Some b0) /\
    srun e (f0, b0) os = Ret (rcs, (f', b')) /\
    (forall name, attr_shows (b_attrset b') name (snd (aspecs (e_me e) no_attrs (sets_of os)) name)) /\ same_table b0 b'.
Proof. exact session_keeps. Qed.

Definition ex_sops : list sop :=
  [SSet (lit "mass") (ex_val [x01; x02; x03; x04; x05; x06; x07; x08]) 500 (lit "i4") 2; SFlush;
   SSet (lit "Box") (ex_val [x09; x00; x00; x00]) 500 (lit "<u4") 1; SReopen;
   SSet (lit "mass") (ex_val (lit "abc")) 500 (lit "S1") 3; SReopen; SFlush].
Ltac wd := split; [nd|repeat constructor; nd].
Ltac dur := intros _; vm_compute; constructor; [wd|wd|reflexivity|split; reflexivity|reflexivity].
Ltac slegal := first [exact I | split; [legal|dur] | legal].
Lemma ex_sops_ok : Forall (sop_ok LE) ex_sops.
Proof. unfold ex_sops. each slegal. Qed.
Lemma ex_clean : g_clean ex_e.
Proof. intros z. repeat constructor; intro H; discriminate H. Qed.
Lemma ex_lay : layout_ok ex_sizes.
Proof. split; [|split; reflexivity]. repeat constructor; intro H; discriminate H. Qed.
Lemma ex_no1 : fs_get ex_f (attr1_path ex_base) = None.
Proof. reflexivity. Qed.
Lemma ex_ty4 : header_type (dtype_normalize LE (lit "i4")).
Proof. split; [reflexivity|]. split; [simpl; lia|]. repeat constructor; intro H; discriminate H. Qed.

Example C29_example : Forall (sop_ok LE) ex_sops /\ zsum (map (sop_size LE) ex_sops) <= 2 ^ 61 /\ Forall keeps ex_sops /\
  g_clean ex_e /\ block_name ex_base /\ block_dir ex_f ex_base /\ layout_ok ex_sizes /\
  fs_get ex_f (attr1_path ex_base) = None /\ header_type (dtype_normalize LE (lit "i4")) /\
  snd (aspecs LE no_attrs (sets_of ex_sops)) (lit "mass") = Some (mkAval (lit "<S1") 3 (lit "abc")).
Proof.
  split; [exact ex_sops_ok|]. split; [intro H; discriminate H|]. split; [repeat constructor|]. split; [exact ex_clean|].
  split; [exact ex_name|]. split; [exact ex_dir|]. split; [exact ex_lay|]. split; [exact ex_no1|]. split; [exact ex_ty4|]. reflexivity.
Qed.

(* Values that do not survive: of the other byte order (the second flush finds
   them swapped), without elements, or with an empty name (the block can no
   longer be opened). *)
Definition ex_sess (os : list sop) (P : fs * block -> Prop) : Prop :=
  match big_block_create ex_e ex_f ex_base (Some (lit "i4")) 1 1 [1] with
  | Ret (f0, Some b0) => match srun ex_e (f0, b0) os with Ret (_, st) => P st | _ => False end
  | _ => False
  end.
Definition lookup_is (s : attrset) (name : bytes) (v : aval) : Prop :=
  match attrset_lookup_attr s name with
  | Ret (Some a) => at_dtype a = av_dtype v /\ at_nmemb a = av_nmemb v /\
                    load (as_mem s) (at_data a) (length (av_data v)) = Some (av_data v)
  | _ => False
  end.
Lemma lookup_is_shows s name v : lookup_is s name v -> attr_shows s name (Some v).
Proof.
  unfold lookup_is, attr_shows. destruct (attrset_lookup_attr s name) as [[a|]|u|]; try contradiction. intros H. exists a. tauto.
Qed.
Lemma ex_sess_elim os P : ex_sess os P -> exists f0 b0 rcs st,
  big_block_create ex_e ex_f ex_base (Some (lit "i4")) 1 (zlen [1]) [1] = Ret (f0, Some b0) /\ srun ex_e (f0, b0) os = Ret (rcs, st) /\ P st.
Proof.
  unfold ex_sess. change (zlen [1]) with 1. destruct (big_block_create ex_e ex_f ex_base (Some (lit "i4")) 1 1 [1]) as [[f0 [b0|]]|u|]; try contradiction.
  destruct (srun ex_e (f0, b0) os) as [[rcs st]|u|] eqn:E; try contradiction. intros H. exists f0, b0, rcs, st. auto.
Qed.

Definition bad_be : sop := SSet (lit "a") (mem_of 0 [x00; x00; x00; x07]) 0 (lit ">i4") 1.
Definition bad_empty : sop := SSet (lit "a") (mem_of 0 []) 0 (lit "<i4") 0.
Definition bad_name : sop := SSet [] (mem_of 0 [x07; x00; x00; x00]) 0 (lit "<i4") 1.
Definition good_b : sop := SSet (lit "b") (mem_of 0 [x01; x00; x00; x00]) 0 (lit "<i4") 1.
Theorem C29_survive_refuted : exists e f base d nmemb sizes f0 b0,
  big_block_create e f base (Some d) nmemb (zlen sizes) sizes = Ret (f0, Some b0) /\
  (exists rcs st, srun e (f0, b0) [bad_be; SFlush; good_b; SReopen] = Ret (rcs, st) /\
     attr_shows (b_attrset (snd st)) (lit "a") (Some (mkAval (lit ">i4") 1 [x07; x00; x00; x00]))) /\
  (exists rcs f1, srun e (f0, b0) [bad_empty; SReopen] = Ret (rcs, f1) /\ big_block_open e (fst f1) base = Ret None) /\
  (exists rcs f1, srun e (f0, b0) [bad_name; SReopen] = Ret (rcs, f1) /\ big_block_open e (fst f1) base = Ret None).
Proof.
  assert (H1 : ex_sess [bad_be; SFlush; good_b; SReopen] (fun st => lookup_is (b_attrset (snd st)) (lit "a") (mkAval (lit ">i4") 1 [x07; x00; x00; x00]))) by (vm_compute; auto).
  assert (H2 : ex_sess [bad_empty; SReopen] (fun st => match big_block_open ex_e (fst st) ex_base with Ret None => True | _ => False end)) by (vm_compute; exact I).
  assert (H3 : ex_sess [bad_name; SReopen] (fun st => match big_block_open ex_e (fst st) ex_base with Ret None => True | _ => False end)) by (vm_compute; exact I).
  apply ex_sess_elim in H1, H2, H3.
  destruct H1 as (f0 & b0 & r1 & s1 & E & R1 & P1). exists ex_e, ex_f, ex_base, (lit "i4"), 1, [1], f0, b0. split; [exact E|].
  destruct H2 as (f2 & b2 & r2 & s2 & E2 & R2 & P2). rewrite E in E2. injection E2 as <- <-.
  destruct H3 as (f3 & b3 & r3 & s3 & E3 & R3 & P3). rewrite E in E3. injection E3 as <- <-.
  split; [|split].
  - exists r1, s1. split; auto. apply lookup_is_shows. auto.
  - exists r2, s2. split; auto. destruct (big_block_open ex_e (fst s2) ex_base) as [[|]|u|]; try contradiction. reflexivity.
  - exists r3, s3. split; auto. destruct (big_block_open ex_e (fst s3) ex_base) as [[|]|u|]; try contradiction. reflexivity.
Qed.

(* ------------------------------------------------------------------ C30 *)
(* The removal reaches the disk when some attribute is set before the flush. *)
Theorem C30_removed_partial : forall e f base d nmemb sizes os name other um data dtype n, g_clean e ->
  block_name base -> block_dir f base -> layout_ok sizes -> fs_get f (attr1_path base) = None ->
  header_type (dtype_normalize (e_me e) d) -> 0 <= nmemb < 2 ^ 31 -> zlen sizes <= 2 ^ 24 ->
  let ops := os ++ [SRemove name; SSet other um data dtype n; SReopen] in
  Forall (sop_ok (e_me e)) ops -> zsum (map (sop_size (e_me e)) ops) <= 2 ^ 61 -> other <> name ->
  exists f0 b0 rcs f' b', big_block_create e f base (Some d) nmemb (zlen sizes) sizes = Ret (f0, Some b0) /\
    srun e (f0, b0) ops = Ret (rcs, (f', b')) /\ attr_shows (b_attrset b') name None.
Proof. exact session_removed. Qed.

(* Otherwise it does not. *)
Theorem C30_removed_refuted : exists e f base d nmemb sizes f0 b0 f' b' name v,
  big_block_create e f base (Some d) nmemb (zlen sizes) sizes = Ret (f0, Some b0) /\
  srun e (f0, b0) [SSet name (mem_of 0 [x01; x00; x00; x00]) 0 (lit "<i4") 1; SReopen; SRemove name; SReopen] = Ret ([0; 0; 0; 0], (f', b')) /\
  attr_shows (b_attrset b') name (Some v).
Proof.
  assert (H : match big_block_create ex_e ex_f ex_base (Some (lit "i4")) 1 1 [1] with
    | Ret (f0, Some b0) => match srun ex_e (f0, b0) [SSet (lit "b") (mem_of 0 [x01; x00; x00; x00]) 0 (lit "<i4") 1; SReopen; SRemove (lit "b"); SReopen] with
       | Ret (rcs, st) => rcs = [0; 0; 0; 0] /\ lookup_is (b_attrset (snd st)) (lit "b") (mkAval (lit "<i4") 1 [x01; x00; x00; x00]) | _ => False end
    | _ => False end) by (vm_compute; auto).
  destruct (big_block_create ex_e ex_f ex_base (Some (lit "i4")) 1 1 [1]) as [[f0 [b0|]]|u|] eqn:E; try contradiction.
  destruct (srun ex_e (f0, b0) _) as [[rcs [f' b']]|u|] eqn:E2; try contradiction. destruct H as [-> H].
  exists ex_e, ex_f, ex_base, (lit "i4"), 1, [1], f0, b0, f', b', (lit "b"), (mkAval (lit "<i4") 1 [x01; x00; x00; x00]).
  split; [exact E|]. split; [exact E2|]. apply lookup_is_shows. exact H.
Qed.

Example C30_example : let ops := ex_sops ++ [SRemove (lit "mass"); good_b; SReopen] in
  Forall (sop_ok LE) ops /\ live (snd (sspecs LE sstart ex_sops)) (lit "mass") <> None /\ lit "b" <> lit "mass".
Proof.
  split; [|split; intro H; discriminate H]. apply Forall_app. split; [exact ex_sops_ok|]. each slegal.
Qed.

(* ------------------------------------------------------------------ C31 *)
Theorem C31_blank_name : forall ra me base os name um data dtype n,
  Forall (aop_ok me) os -> zsum (map (aop_size me) os) <= 2 ^ 61 -> has_blank name = true ->
  exists s, arun ra me (attrset_create base) os = Ret (fst (aspecs me no_attrs os), s) /\
    attrset_set_attr ra me s name um data dtype n = Ret (-1, set_dirty s true, um) /\
    attr_names (set_dirty s true) = attr_names s /\
    forall k, attr_shows (set_dirty s true) k (snd (aspecs me no_attrs os) k).
Proof. exact attrs_blank. Qed.
(* which names these are *)
Theorem C31_blank_meaning : forall name, has_blank name = true <->
  exists c, In c name /\ (c = " "%byte \/ c = x09 \/ c = x0a).
Proof.
  intros name. unfold has_blank. rewrite existsb_exists. split; intros (c & Hc & H); exists c; split; auto.
  - rewrite !orb_true_iff, !byte_eqb_eq in H. tauto.
  - rewrite !orb_true_iff, !byte_eqb_eq. tauto.
Qed.
Example C31_example : Forall (aop_ok LE) ex_aops /\ has_blank (lit "a b") = true /\ has_blank [x09] = true /\ has_blank (lit "ab") = false.
Proof. split; [exact ex_aops_ok|]. repeat split. Qed.

(* ------------------------------------------------------------------ C32 *)
(* The attribute file of any history is cut after p. Either reading it runs off
   the end of the buffer - not when p is empty or ends with a newline - or the
   block opens with the saved values of the first j names, at least those whose
   lines are complete, and nothing else. *)
Theorem C32_crash_partial : forall e f base d nmemb sizes os f0 b0 rcs f' b' f1 p q, g_clean e ->
  block_name base -> block_dir f base -> layout_ok sizes -> fs_get f (attr1_path base) = None ->
  header_type (dtype_normalize (e_me e) d) -> 0 <= nmemb < 2 ^ 31 -> zlen sizes <= 2 ^ 24 ->
  Forall (sop_ok (e_me e)) os -> zsum (map (sop_size (e_me e)) os) <= 2 ^ 61 ->
  big_block_create e f base (Some d) nmemb (zlen sizes) sizes = Ret (f0, Some b0) ->
  srun e (f0, b0) os = Ret (rcs, (f', b')) ->
  fs_get f' (attr2_path base) = Some (File (p ++ q)) ->
  only_changes f' f1 (fun x => x = attr2_path base) -> fs_get f1 (attr2_path base) = Some (File p) ->
  exists names, sorted_names names /\
    (forall n, In n names <-> saved (snd (sspecs (e_me e) sstart os)) n <> None) /\
    ((big_block_open e f1 base = Undef OOB /\ last p x0a <> x0a) \/
     exists b2 j, big_block_open e f1 base = Ret (Some b2) /\ same_table b' b2 /\
       (count_lines p <= j <= S (count_lines p))%nat /\ (j <= length names)%nat /\
       forall n, attr_shows (b_attrset b2) n
         (if existsb (bytes_eqb n) (firstn j names) then saved (snd (sspecs (e_me e) sstart os)) n else None)).
Proof. exact attr_crash. Qed.

Lemma ex_sess_run : exists f0 b0 rcs f' b' c, big_block_create ex_e ex_f ex_base (Some (lit "i4")) 1 (zlen [1]) [1] = Ret (f0, Some b0) /\
  srun ex_e (f0, b0) ex_sops = Ret (rcs, (f', b')) /\ fs_get f' (attr2_path ex_base) = Some (File c) /\
  firstn 10 c = lit "Box <u4 1 " /\ only_changes f' (fs_set f' (attr2_path ex_base) (File (firstn 10 c))) (fun x => x = attr2_path ex_base) /\
  big_block_open ex_e (fs_set f' (attr2_path ex_base) (File (firstn 10 c))) ex_base = Undef OOB.
Proof.
  assert (H : ex_sess ex_sops (fun st => match fs_get (fst st) (attr2_path ex_base) with
     | Some (File c) => firstn 10 c = lit "Box <u4 1 " /\ match big_block_open ex_e (fs_set (fst st) (attr2_path ex_base) (File (firstn 10 c))) ex_base with
          | Undef OOB => True | _ => False end
     | _ => False end)) by (vm_compute; auto).
  apply ex_sess_elim in H. destruct H as (f0 & b0 & rcs & [f' b'] & E & R & P). cbn [fst] in P.
  destruct (fs_get f' (attr2_path ex_base)) as [[|c]|] eqn:Eg; try contradiction. destruct P as [P1 P2].
  exists f0, b0, rcs, f', b', c. split; [exact E|]. split; [exact R|]. split; [exact Eg|]. split; [exact P1|]. split.
  - intros q Hq. apply fs_get_set_other. auto.
  - destruct (big_block_open ex_e _ ex_base) as [x|[]|]; try contradiction. reflexivity.
Qed.
(* A cut inside the fields of a line is undefined behaviour. *)
Theorem C32_crash_refuted : exists e f base d nmemb sizes os f0 b0 rcs f' b' f1 p q,
  big_block_create e f base (Some d) nmemb (zlen sizes) sizes = Ret (f0, Some b0) /\
  srun e (f0, b0) os = Ret (rcs, (f', b')) /\
  fs_get f' (attr2_path base) = Some (File (p ++ q)) /\
  only_changes f' f1 (fun x => x = attr2_path base) /\ fs_get f1 (attr2_path base) = Some (File p) /\
  big_block_open e f1 base = Undef OOB.
Proof.
  destruct ex_sess_run as (f0 & b0 & rcs & f' & b' & c & H1 & H2 & H3 & H4 & H5 & H6).
  exists ex_e, ex_f, ex_base, (lit "i4"), 1, [1], ex_sops, f0, b0, rcs, f', b', (fs_set f' (attr2_path ex_base) (File (firstn 10 c))), (firstn 10 c), (skipn 10 c).
  rewrite firstn_skipn. split; [exact H1|]. split; [exact H2|]. split; [exact H3|]. split; [exact H5|]. split; [|exact H6].
  apply fs_get_set_same. split; nd.
Qed.
Example C32_example : Forall (sop_ok LE) ex_sops /\ exists f0 b0 rcs f' b' c,
  big_block_create ex_e ex_f ex_base (Some (lit "i4")) 1 (zlen [1]) [1] = Ret (f0, Some b0) /\
  srun ex_e (f0, b0) ex_sops = Ret (rcs, (f', b')) /\ fs_get f' (attr2_path ex_base) = Some (File c).
Proof.
  split; [exact ex_sops_ok|]. destruct ex_sess_run as (f0 & b0 & rcs & f' & b' & c & H1 & H2 & H3 & _). exists f0, b0, rcs, f', b', c. auto.
Qed.

(* ------------------------------------------------------------------ C33 *)
(* A legacy file l1 and possibly an attr-v2 file l2 beside a valid header. *)
Theorem C33_legacy : forall e f b sizes c l1 (l2 : list (bytes * aval * bytes)), has_layout b sizes -> block_name (b_base b) ->
  header_type (b_dtype b) -> 0 <= b_nmemb b < 2 ^ 31 -> zlen sizes <= 2 ^ 24 ->
  header_image b = Ret c -> fs_get f (header_path (b_base b)) = Some (File c) ->
  Forall (legacy (e_me e)) l1 -> fs_get f (attr1_path (b_base b)) = Some (File (v1_file (e_me e) l1)) ->
  Forall (fun x => durable (e_me e) (fst (fst x)) (snd (fst x)) /\ dt_ok (e_me e) (av_dtype (snd (fst x))) /\
     zlen (av_data (snd (fst x))) = av_nmemb (snd (fst x)) * itemsize (e_me e) (av_dtype (snd (fst x))) /\
     Forall (fun c => c <> x0a /\ c <> x00) (snd x)) l2 ->
  NoDup (map (fun x => fst (fst x)) l2) ->
  fs_get f (attr2_path (b_base b)) = Some (File (v2_file l2)) \/ (l2 = [] /\ fs_get f (attr2_path (b_base b)) = None) ->
  room l1 + room (map fst l2) <= 2 ^ 61 ->
  exists b2, big_block_open e f (b_base b) = Ret (Some b2) /\ same_table b b2 /\ has_layout b2 sizes /\
    forall n, attr_shows (b_attrset b2) n (match assoc n (map fst l2) with Some v => Some v | None => last_of (e_me e) l1 n end).
Proof. exact legacy_open. Qed.

Definition ex_l1 : list (bytes * aval) :=
  [(lit "a", mkAval (lit "=i4") 1 [x01; x00; x00; x00]); (lit "b", mkAval (lit ">i2") 2 [x01; x02; x03; x04]);
   (lit "a", mkAval (lit "<u1") 3 (lit "abc"))].
Definition ex_l2 : list (bytes * aval * bytes) := [((lit "b", mkAval (lit "<i8") 1 (lit "12345678")), lit "xyz")].
Definition ex_f12 : fs := fs_set (fs_set ex_fh (attr1_path ex_base) (File (v1_file LE ex_l1))) (attr2_path ex_base) (File (v2_file ex_l2)).
Example C33_example : header_image ex_b = Ret ex_hdr /\ fs_get ex_f12 (header_path ex_base) = Some (File ex_hdr) /\
  fs_get ex_f12 (attr1_path ex_base) = Some (File (v1_file LE ex_l1)) /\
  fs_get ex_f12 (attr2_path ex_base) = Some (File (v2_file ex_l2)) /\
  Forall (legacy LE) ex_l1 /\
  Forall (fun x => durable LE (fst (fst x)) (snd (fst x)) /\ dt_ok LE (av_dtype (snd (fst x))) /\
     zlen (av_data (snd (fst x))) = av_nmemb (snd (fst x)) * itemsize LE (av_dtype (snd (fst x))) /\
     Forall (fun c => c <> x0a /\ c <> x00) (snd x)) ex_l2 /\ room ex_l1 + room (map fst ex_l2) <= 2 ^ 61.
Proof.
  split; [reflexivity|]. split; [reflexivity|]. split; [reflexivity|]. split; [reflexivity|]. split; [|split].
  - unfold ex_l1. each ltac:(constructor; [wd|reflexivity|reflexivity|simpl; lia|apply not_in_dec; reflexivity|reflexivity|reflexivity|reflexivity|reflexivity]).
  - unfold ex_l2. each ltac:(split; [constructor; [wd|wd|reflexivity|split; reflexivity|reflexivity]|split; [split; reflexivity|split; [reflexivity|repeat constructor; nd]]]).
  - intro H; discriminate H.
Qed.

Definition all_Attr := (@C26_attribute_map, @C27_memory_safe, @C28_get_partial, @C28_get_refuted, @C29_sessions, @C29_survive_partial,
  @C29_survive_refuted, @C30_removed_partial, @C30_removed_refuted, @C31_blank_name, @C31_blank_meaning, @C32_crash_partial,
  @C32_crash_refuted, @C33_legacy).
Print Assumptions all_Attr.
