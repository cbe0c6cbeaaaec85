(* Renaming, removing and repartitioning: facts. *)
From Coq.Strings Require Import Byte String.
From Coq Require Import List ZArith Lia Bool ZifyBool ZifyNat.
From Verif Require Import Base BaseFacts Dtype Cast Array FS FSFacts Attr Block File FileSpec FileFacts ListFacts OpenFacts Util Spec OpenSpec HistSpec HistFacts FrameFacts ReopenFacts UtilSpec UtilFacts CopyFacts Repart RepartSpec.
Import ListNotations.
Open Scope Z_scope.

(* ------------------------------------------------------------ paths *)
Lemma strip_app p q r : strip p q = Some r <-> q = p ++ r.
Proof.
  revert q. induction p as [|x p IH]; intros q; cbn [strip app]; [split; congruence|].
  destruct q as [|y q]; [split; discriminate|]. destruct (bytes_eqb x y) eqn:E.
  - apply bytes_eqb_eq in E. subst. rewrite IH. split; congruence.
  - split; [discriminate|]. intros [= -> ->]. rewrite bytes_eqb_refl in E. discriminate.
Qed.
Lemma strip_self p r : strip p (p ++ r) = Some r. Proof. apply strip_app. reflexivity. Qed.
Lemma inside_prefix p q : inside p q = true <-> prefix_of p q.
Proof.
  unfold inside, prefix_of. destruct (strip p q) as [r|] eqn:E.
  - apply strip_app in E. split; eauto.
  - split; [discriminate|]. intros (r & X). apply strip_app in X. congruence.
Qed.
Lemma inside_not p q : inside p q = false <-> ~ prefix_of p q.
Proof. rewrite <- inside_prefix. destruct (inside p q); split; congruence. Qed.
Lemma strip_not p q : ~ prefix_of p q -> strip p q = None.
Proof. intros H. destruct (strip p q) as [r|] eqn:E; [|reflexivity]. apply strip_app in E. exfalso. apply H. exists r. exact E. Qed.

(* ------------------------------------------------------- moving, removing *)
Lemma find_rm f p q : fs_find (fs_rm f p) q = if inside p q then None else fs_find f q.
Proof.
  induction f as [|[x n] f IH]; cbn [fs_rm filter fs_find]; [destruct (inside p q); reflexivity|]. fold (fs_rm f p).
  destruct (inside p x) eqn:Ex; cbn [negb fs_find]; rewrite IH.
  - destruct (path_eqb x q) eqn:E; [|reflexivity]. apply path_eqb_eq in E. subst. rewrite Ex. reflexivity.
  - destruct (path_eqb x q) eqn:E; [|reflexivity]. apply path_eqb_eq in E. subst. rewrite Ex. reflexivity.
Qed.
Lemma find_move f s t q : (forall r, fs_find f (t ++ r) = None) -> ~ prefix_of s t ->
  fs_find (fs_move f s t) q = match strip t q with Some r => fs_find f (s ++ r) | None => if inside s q then None else fs_find f q end.
Proof.
  intros Ht Hst. induction f as [|[x n] f IH]; cbn [fs_move map fs_find]; [destruct (strip t q), (inside s q); reflexivity|].
  assert (Ht' : forall r, fs_find f (t ++ r) = None).
  { intros r. specialize (Ht r). cbn [fs_find] in Ht. destruct (path_eqb x (t ++ r)); [discriminate|exact Ht]. }
  assert (Hx : ~ prefix_of t x). { intros (r & ->). specialize (Ht r). cbn [fs_find] in Ht. rewrite path_eqb_refl in Ht. discriminate. }
  fold (fs_move f s t). rewrite (IH Ht'). clear IH. destruct (strip s x) as [r|] eqn:E.
  - apply strip_app in E. subst x. destruct (path_eqb (t ++ r) q) eqn:Eq.
    + apply path_eqb_eq in Eq. subst q. rewrite strip_self. cbn [fs_find]. rewrite path_eqb_refl. reflexivity.
    + destruct (strip t q) as [r'|] eqn:Eq'.
      * apply strip_app in Eq'. subst q. cbn [fs_find]. destruct (path_eqb (s ++ r) (s ++ r')) eqn:X; [|reflexivity].
        apply path_eqb_eq in X. apply app_inv_head in X. subst r'. rewrite path_eqb_refl in Eq. discriminate.
      * destruct (inside s q) eqn:Ei; [reflexivity|]. destruct (path_eqb (s ++ r) q) eqn:X; [|reflexivity].
        apply path_eqb_eq in X. subst q. unfold inside in Ei. rewrite strip_self in Ei. discriminate.
  - assert (Hsx : ~ prefix_of s x) by (apply inside_not; unfold inside; rewrite E; reflexivity). destruct (path_eqb x q) eqn:Eq.
    + apply path_eqb_eq in Eq. subst q. rewrite (strip_not t x Hx). apply inside_not in Hsx. rewrite Hsx. reflexivity.
    + destruct (strip t q) as [r'|] eqn:Eq'.
      * cbn [fs_find]. destruct (path_eqb x (s ++ r')) eqn:X; [|reflexivity]. apply path_eqb_eq in X. exfalso. apply Hsx. exists r'. exact X.
      * destruct (inside s q); reflexivity.
Qed.

(* Names below a path that ends in an ordinary component are looked up. *)
Lemma get_below f p r : proper p -> fs_get f (p ++ r) = fs_find f (p ++ r).
Proof.
  intros [H1 H2]. destruct p as [|x p]; [contradiction|]. destruct p as [|y p]; cbn [app fs_get].
  - destruct r; [|reflexivity]. destruct (bytes_eqb x (lit "/")) eqn:E; [|reflexivity]. apply bytes_eqb_eq in E. subst. contradiction.
  - reflexivity.
Qed.
Lemma proper_last p c : entry_name c -> proper (p ++ [c]).
Proof.
  intros [_ H]. split; [destruct p; discriminate|]. destruct p as [|x p]; cbn [app]; [|destruct p; discriminate]. intros [= ->]. apply H. left. reflexivity.
Qed.
Lemma get_out f f' q : (forall x, x = q -> fs_find f' x = fs_find f x) -> fs_get f' q = fs_get f q.
Proof. intros H. specialize (H q eq_refl). destruct q as [|x [|y q]]; cbn [fs_get]; auto. destruct (bytes_eqb x (lit "/")); auto. Qed.

Lemma move_moved f s t : proper s -> proper t -> (forall r, fs_get f (t ++ r) = None) -> ~ prefix_of s t -> ~ prefix_of t s -> moved f (fs_move f s t) s t.
Proof.
  intros Ps Pt Ht Hst Hts. assert (Hf : forall r, fs_find f (t ++ r) = None) by (intros r; rewrite <- get_below by exact Pt; apply Ht).
  split; [|split].
  - intros r. rewrite !get_below by assumption. rewrite find_move, strip_self by assumption. reflexivity.
  - intros r. rewrite get_below by assumption. rewrite find_move by assumption. rewrite strip_not.
    + replace (inside s (s ++ r)) with true by (symmetry; apply inside_prefix, prefix_app). reflexivity.
    + intros X. apply prefix_cases in X. tauto.
  - intros q H1 H2. apply get_out. intros x ->. rewrite find_move by assumption. rewrite strip_not by exact H2. apply inside_not in H1. rewrite H1. reflexivity.
Qed.
Lemma rm_removed f p : proper p -> removed f (fs_rm f p) [p].
Proof.
  intros Pp. split.
  - intros q p' [<-|[]] (r & ->). rewrite get_below by exact Pp. rewrite find_rm. replace (inside p (p ++ r)) with true by (symmetry; apply inside_prefix, prefix_app). reflexivity.
  - intros q H. apply get_out. intros x ->. rewrite find_rm. specialize (H p (or_introl eq_refl)). apply inside_not in H. rewrite H. reflexivity.
Qed.

(* ------------------------------------------------------------- names *)
Lemma resolve_slash p s : p <> [] -> resolve (p ++ lit "/" ++ s) = resolve p ++ filter (fun c => negb (is_dot c)) (split_slash [] s).
Proof.
  intros H. change (p ++ lit "/" ++ s) with (p ++ slash :: s). unfold resolve. rewrite split_slash_app, filter_app.
  destruct p as [|c p]; [contradiction|]. cbn [app]. rewrite <- app_assoc. reflexivity.
Qed.
Lemma name_path p cs : p <> [] -> Forall entry_name cs -> resolve (p ++ lit "/" ++ slashed cs) = resolve p ++ cs.
Proof. intros H Hc. rewrite resolve_slash by exact H. f_equal. apply slashed_comps. exact Hc. Qed.
Lemma last_ok p cs c : p <> [] -> Forall entry_name (cs ++ [c]) -> no_last (p ++ lit "/" ++ slashed (cs ++ [c])) = false.
Proof.
  intros Hp H. unfold no_last. rewrite name_path by assumption. change (p ++ lit "/" ++ slashed (cs ++ [c])) with (p ++ slash :: slashed (cs ++ [c])).
  rewrite split_slash_app, slashed_split by (auto; destruct cs; discriminate). rewrite app_assoc, last_last. pose proof (proj2 (proj1 (Forall_app _ _ _) H)) as Hc. apply Forall_inv in Hc.
  apply orb_false_iff. split.
  - destruct (bytes_eqb c (lit ".")) eqn:E; [|reflexivity]. apply bytes_eqb_eq in E. subst. destruct Hc; discriminate.
  - rewrite app_assoc. destruct (proper_last (resolve p ++ cs) c Hc) as [P1 P2]. destruct ((resolve p ++ cs) ++ [c]) as [|x [|y l]]; [contradiction| |reflexivity].
    destruct (bytes_eqb x (lit "/")) eqn:E; [|reflexivity]. apply bytes_eqb_eq in E. subst. contradiction.
Qed.

(* In a tree nothing is below what is not there. *)
Lemma tree_below f p r : tree f -> fs_get f p = None -> fs_get f (p ++ r) = None.
Proof.
  intros T H. revert r. apply (rev_ind (fun r => fs_get f (p ++ r) = None)); [rewrite app_nil_r; exact H|].
  intros c r IH. rewrite app_assoc. destruct (fs_get f ((p ++ r) ++ [c])) eqn:E; [|reflexivity]. destruct (T (p ++ r) c) as [X _]; [congruence|]. congruence.
Qed.
Lemma tree_way f p : tree f -> fs_get f p = Some Dir -> way_made f p.
Proof.
  intros T H q (r & ->). revert H. apply (rev_ind (fun r => fs_get f (q ++ r) = Some Dir -> fs_get f q = Some Dir)); [rewrite app_nil_r; auto|].
  intros c r' IH X. apply IH. rewrite app_assoc in X. apply (T (q ++ r') c). congruence.
Qed.

Lemma rename_moves f path cs c ds d : path <> [] -> Forall entry_name (cs ++ [c]) -> Forall entry_name (ds ++ [d]) ->
  fs_get f (resolve path ++ cs ++ [c]) <> None -> (forall r, fs_get f ((resolve path ++ ds ++ [d]) ++ r) = None) -> fs_get f (resolve path ++ ds) = Some Dir ->
  ~ prefix_of (cs ++ [c]) (ds ++ [d]) -> ~ prefix_of (ds ++ [d]) (cs ++ [c]) ->
  exists f', bigfile_rename f path (slashed (cs ++ [c])) (slashed (ds ++ [d])) = (0, f') /\ moved f f' (resolve path ++ cs ++ [c]) (resolve path ++ ds ++ [d]).
Proof.
  intros Hp Hc Hd Hs Ht Hpar H1 H2. exists (fs_move f (resolve path ++ cs ++ [c]) (resolve path ++ ds ++ [d])).
  assert (N1 : ~ prefix_of (resolve path ++ cs ++ [c]) (resolve path ++ ds ++ [d])). { intros (r & X). rewrite <- app_assoc in X. apply app_inv_head in X. apply H1. exists r. exact X. }
  assert (N2 : ~ prefix_of (resolve path ++ ds ++ [d]) (resolve path ++ cs ++ [c])). { intros (r & X). rewrite <- app_assoc in X. apply app_inv_head in X. apply H2. exists r. exact X. }
  assert (Ht0 : fs_get f (resolve path ++ ds ++ [d]) = None) by (specialize (Ht []); rewrite app_nil_r in Ht; exact Ht). split.
  - unfold bigfile_rename, mv. rewrite last_ok, !name_path by assumption. cbv zeta. replace (is_dir f (resolve path ++ ds ++ [d])) with false by (unfold is_dir; rewrite Ht0; reflexivity).
    apply inside_not in N1. rewrite N1. destruct (fs_get f (resolve path ++ cs ++ [c])) as [n|]; [|contradiction]. rewrite Ht0.
    unfold parent. rewrite app_assoc, removelast_last. unfold is_dir. rewrite Hpar. rewrite <- app_assoc. destruct n; reflexivity.
  - rewrite Forall_app in Hc, Hd. destruct Hc as [_ Hc]. destruct Hd as [_ Hd]. apply Forall_inv in Hc. apply Forall_inv in Hd.
    apply move_moved; try assumption; rewrite app_assoc; apply proper_last; assumption.
Qed.
Lemma rename_fails f path blk new rc f' : bigfile_rename f path blk new = (rc, f') -> rc <> 0 -> f' = f.
Proof.
  unfold bigfile_rename, mv. cbv zeta. generalize (path ++ lit "/" ++ blk) (path ++ lit "/" ++ new). intros a b.
  destruct (no_last a); [congruence|]. destruct (inside _ _); [congruence|].
  destruct (fs_get f (resolve a)) as [[|x]|]; [| |congruence]; destruct (fs_get f _) as [[|y]|]; try congruence; try (destruct (occupied _ _); congruence); destruct (is_dir f (parent _)); congruence.
Qed.
Lemma rm_one f path cs c : path <> [] -> Forall entry_name (cs ++ [c]) ->
  exists rc f', rm_r f (path ++ lit "/" ++ slashed (cs ++ [c])) = (rc, f') /\ (tree f -> removed f f' [resolve path ++ cs ++ [c]]) /\
    (rc = 0 <-> fs_get f (resolve path ++ cs ++ [c]) <> None) /\ (rc = 0 -> removed f f' [resolve path ++ cs ++ [c]]).
Proof.
  intros Hp H. unfold rm_r. rewrite last_ok, name_path by assumption. pose proof (proj2 (proj1 (Forall_app _ _ _) H)) as Hc. apply Forall_inv in Hc.
  assert (P : proper (resolve path ++ cs ++ [c])) by (rewrite app_assoc; apply proper_last; exact Hc).
  destruct (fs_get f (resolve path ++ cs ++ [c])) as [n|] eqn:E.
  - eexists 0, _. split; [reflexivity|]. pose proof (rm_removed f _ P). split; [auto|]. split; [split; congruence|auto].
  - eexists 1, f. split; [reflexivity|]. split; [|split; [split; [discriminate|congruence]|discriminate]]. intros T. split; [|auto].
    intros q p [<-|[]] (r & ->). apply tree_below; assumption.
Qed.

(* ------------------------------------------ a block seen from another place *)
Definition alike (f f' : fs) (base base' : bytes) : Prop := forall c, plain c -> fs_get f' (resolve base' ++ [c]) = fs_get f (resolve base ++ [c]).
Lemma alike_open_r f f' base base' c : alike f f' base base' -> plain c -> fopen_r f' (resolve (path_join base' c)) = fopen_r f (resolve (path_join base c)).
Proof. intros H P. unfold fopen_r. rewrite !resolve_join, H by exact P. reflexivity. Qed.
Lemma alike_contents f f' base base' c : alike f f' base base' -> plain c -> file_contents f' (resolve (path_join base' c)) = file_contents f (resolve (path_join base c)).
Proof. intros H P. unfold file_contents. rewrite (alike_open_r _ _ _ _ _ H P). reflexivity. Qed.
Lemma open_alike e f f' base base' : alike f f' base base' -> is_meta base = false -> is_meta base' = false ->
  (length base <= Z.to_nat 8192)%nat -> (length base' <= Z.to_nat 8192)%nat ->
  big_block_open e f' base' = opened_at base' (big_block_open e f base).
Proof.
  intros H M M' L L'. unfold big_block_open, opened_at. rewrite !strdup_id by assumption.
  unfold attr1_path, attr2_path, header_path. rewrite !(alike_contents _ _ _ _ _ H), !(alike_open_r _ _ _ _ _ H) by (apply attr_plain || apply attr2_plain || apply header_plain).
  rewrite M, M'. destruct (attrset_read_v1 _ _ _ _) as [[rc1 s1]| |]; cbn [bind]; [|reflexivity|reflexivity]. destruct (negb (rc1 =? 0)); [reflexivity|].
  destruct (fopen_r f (resolve (path_join base (lit "attr-v2")))) as [[x|]|]; [| reflexivity |];
    (destruct (attrset_read_v2 _ _ _ _) as [[rc2 s2]| |]; cbn [bind]; [|reflexivity|reflexivity]; destruct (negb (rc2 =? 0)); [reflexivity|];
     destruct (fopen_r f (resolve (path_join base (lit "header")))) as [[y|]|]; try reflexivity; destruct (parse_header y) as [[h|]| |]; reflexivity).
Qed.
Lemma read_loop_alike e f f' base base' : alike f f' base base' -> forall fuel b p cb ca um ai cs n, b_base b = base ->
  read_loop e f' (at_path base' b) p cb ca um ai cs n fuel = read_loop e f b p cb ca um ai cs n fuel.
Proof.
  intros H. induction fuel as [|k IH]; intros b p cb ca um ai cs n Eb; [reflexivity|]. cbn [read_loop].
  destruct (negb (0 <? n)); [reflexivity|]. change (big_block_eof (at_path base' b) p) with (big_block_eof b p).
  assert (Hp : big_block_eof b p <> Undef OOB -> 0 <= p_fileid p).
  { unfold big_block_eof, znth. destruct (p_fileid p <? 0) eqn:E; [|lia]. cbn. congruence. }
  destruct (big_block_eof b p) as [[|]| |] eqn:Ee; cbn [bind]; try reflexivity. specialize (Hp ltac:(discriminate)).
  change (next_chunk (at_path base' b) p cs n) with (next_chunk b p cs n). destruct (next_chunk b p cs n) as [c| |]; cbn [bind]; try reflexivity.
  destruct (c =? 0); [reflexivity|]. change (b_base (at_path base' b)) with base'. rewrite Eb. unfold data_path. rewrite (alike_open_r _ _ _ _ _ H) by (apply print_06X_plain; exact Hp).
  destruct (fopen_r f _) as [oc|]; [|reflexivity]. change (felsize e (at_path base' b)) with (felsize e b). change (b_nmemb (at_path base' b)) with (b_nmemb b).
  destruct (p_roffset p * felsize e b <? 0); [reflexivity|]. destruct (or_ub OOB (store cb 0 _)) as [cb1| |]; cbn [bind]; try reflexivity.
  destruct (negb _); [reflexivity|]. destruct (dtype_convert _ _ _ _ _ _) as [[[[[rc um1] ai1] cb2] y]| |]; cbn [bind]; try reflexivity. destruct (negb (rc =? 0)); [reflexivity|].
  change (big_block_seek_rel (at_path base' b) p c) with (big_block_seek_rel b p c). destruct (big_block_seek_rel b p c) as [[rc2 p1]| |]; cbn [bind]; try reflexivity.
  destruct (negb (rc2 =? 0)); [reflexivity|]. apply IH. exact Eb.
Qed.
Lemma read_alike e f f' base base' b p a um : alike f f' base base' -> b_base b = base ->
  big_block_read e f' (at_path base' b) p a um = big_block_read e f b p a um.
Proof.
  intros H Eb. unfold big_block_read. change (felsize e (at_path base' b)) with (felsize e b). change (chunk_rows e (at_path base' b)) with (chunk_rows e b).
  destruct (2 ^ 31 <=? _); [reflexivity|]. destruct (felsize e b =? 0); [reflexivity|]. cbn [at_path b_dtype b_nmemb b_foffset b_size].
  destruct (big_array_init _ _ _ _ _) as [ca| |]; cbn [bind]; try reflexivity. change (row_nmemb (at_path base' b)) with (row_nmemb b). destruct (or_ub _ _); cbn [bind]; try reflexivity.
  destruct (_ <? _); [reflexivity|]. apply (read_loop_alike _ _ _ _ _ H). exact Eb.
Qed.
Lemma read_simple_alike e f f' base base' b start n d : alike f f' base base' -> b_base b = base ->
  big_block_read_simple e f' (at_path base' b) start n d = big_block_read_simple e f b start n d.
Proof.
  intros H Eb. unfold big_block_read_simple. change (big_block_seek (at_path base' b)) with (big_block_seek b). cbn [at_path b_dtype b_nmemb b_size]. destruct (big_block_seek b _ _) as [[rc p]| |]; cbn [bind]; [|reflexivity|reflexivity].
  destruct (negb _); [reflexivity|]. destruct (_ <? 0); [reflexivity|]. destruct (big_array_init _ _ _ _ _) as [a| |]; cbn [bind]; [|reflexivity|reflexivity].
  fold (at_path base' b). rewrite (read_alike _ _ _ _ _ _ _ _ _ H Eb). reflexivity.
Qed.

(* ------------------------------------------ a closed block, moved *)
Lemma hinv_moved e base base' dt nmemb w t f f' b : alike f f' base base' -> fs_get f' (resolve base') = fs_get f (resolve base) ->
  hinv e base dt nmemb w t f b -> hinv e base' dt nmemb w t f' (at_path base' b).
Proof.
  intros H Hr I. assert (Hdf : forall i, data_file f' base' i = data_file f base i).
  { intros i. unfold data_file, data_path. rewrite !resolve_join by (apply print_06X_plain; lia). rewrite H by (apply print_06X_plain; lia). reflexivity. }
  assert (Hst : forall r, stored_row f' base' (t_sizes t) w r = stored_row f base (t_sizes t) w r).
  { intros r. unfold stored_row. destruct (home _ r) as [[i q]|]; auto. rewrite Hdf. auto. }
  destruct I. constructor; auto.
  - destruct hv_wb. constructor; auto. destruct wb_layout. constructor; auto.
  - destruct hv_dir as (D1 & D2 & D3 & D4). unfold block_dir, header_path, attr2_path, data_path in *. rewrite !resolve_join in * by (apply header_plain || apply attr2_plain).
    rewrite Hr, !H by (apply header_plain || apply attr2_plain). split; [exact D1|]. split; [exact D2|]. split; [exact D3|]. intros i Hi. specialize (D4 i Hi).
    rewrite resolve_join in D4 |- * by (apply print_06X_plain; lia). rewrite H by (apply print_06X_plain; lia). exact D4.
  - intros i Hi. rewrite Hdf. auto.
  - intros i c Hi Hc. rewrite Hdf in Hc. eauto.
  - intros r v Hv. rewrite Hst. auto.
  - intros r v Hv. rewrite Hst in Hv. auto.
  - intros Hd. specialize (hv_hdr Hd). unfold header_path in *. rewrite resolve_join in hv_hdr |- * by apply header_plain. rewrite H by apply header_plain. exact hv_hdr.
  - destruct hv_att as (s & Hs & Hd). exists s. split; auto. rewrite <- Hs. unfold open_attrs, attr1_path, attr2_path.
    rewrite !(alike_contents _ _ _ _ _ H), !(alike_open_r _ _ _ _ _ H) by (apply attr_plain || apply attr2_plain). reflexivity.
Qed.
Lemma fresh_moved e base base' dt nmemb B t d f f' b : alike f f' base base' -> fs_get f' (resolve base') = fs_get f (resolve base) ->
  fresh e base dt nmemb B t d f b -> fresh e base' dt nmemb B t d f' (at_path base' b).
Proof.
  intros H Hr [J Jc Jo Ju (ts & H1 & H2 & H3) J1 Jv Jl Jt]. pose proof (hinv_moved _ _ _ _ _ _ _ _ _ _ H Hr J) as I. constructor; auto.
  - exists ts. split; auto. split; auto. unfold attr2_path in *. rewrite resolve_join in H3 |- * by apply attr2_plain. rewrite H by apply attr2_plain. exact H3.
  - unfold attr1_path in *. rewrite resolve_join in J1 |- * by apply attr_plain. rewrite H by apply attr_plain. exact J1.
Qed.
