(* Properties C73, C74: bigfile-rename, bigfile-rm, bigfile-repartition. *)
From Coq.Strings Require Import Byte String.
From Coq Require Import List ZArith Lia Bool ZifyBool ZifyNat.
From Verif Require Import Base BaseFacts Dtype Cast Array FS Fmt Attr Block File Split Spec AttrSpec OpenSpec SessSpec HistSpec FileSpec Py PySpec Util UtilSpec
  FSFacts DtypeFacts ArrayFacts SeekFacts ConvFacts WriteFacts ReadFacts IOFacts AttrFacts AttrFileFacts TextFacts HeaderFacts TableFacts OpenFacts ReopenFacts SessFacts HistFacts AggFacts MpiFacts StepFacts MiscFacts
  FileFacts FrameFacts RecNewFacts PyFacts PyNewFacts ListFacts UtilFacts CopyFacts Repart RepartSpec RepartFacts RepartRunFacts Ex PropsHist PropsAttr PropsFile PropsPy PropsUtil.
Import ListNotations.
Open Scope Z_scope.
Local Open Scope out_scope.

(* ------------------------------------------------------------------ C73 *)
(* Full statement: bigfile-rename gives a block another name and changes
   nothing else: under the new name the same block is opened and the same rows
   are read; if it fails nothing changes. bigfile-rm removes the blocks named
   and nothing else.
   If nothing has the new name, and the directory it is in exists. Renaming it
   back restores everything. *)
Theorem C73_rename_partial : forall f path cs c ds d, tree f -> path <> [] -> Forall entry_name (cs ++ [c]) -> Forall entry_name (ds ++ [d]) ->
  let old := resolve path ++ cs ++ [c] in let new := resolve path ++ ds ++ [d] in
  let blk := slashed (cs ++ [c]) in let name := slashed (ds ++ [d]) in
  fs_get f old <> None -> fs_get f new = None -> fs_get f (resolve path ++ ds) = Some Dir -> ~ prefix_of (cs ++ [c]) (ds ++ [d]) ->
  exists f', bigfile_rename f path blk name = (0, f') /\ moved f f' old new /\
    (exists f2, bigfile_rename f' path name blk = (0, f2) /\ forall q, fs_get f2 q = fs_get f q) /\
    forall e, is_meta (path_join path blk) = false -> is_meta (path_join path name) = false ->
      (length (path_join path blk) <= Z.to_nat 8192)%nat -> (length (path_join path name) <= Z.to_nat 8192)%nat ->
      big_file_open_block e f' path name = opened_at (path_join path name) (big_file_open_block e f path blk) /\
      big_file_open_block e f' path blk = Ret None /\
      forall b, b_base b = path_join path blk ->
        (forall p a um, big_block_read e f' (at_path (path_join path name) b) p a um = big_block_read e f b p a um) /\
        (forall start n dt, big_block_read_simple e f' (at_path (path_join path name) b) start n dt = big_block_read_simple e f b start n dt).
Proof.
  intros f path cs c ds d T Hp Hc Hd old new blk name Ho Hn Hpar Hpre.
  assert (Hbelow : forall r, fs_get f (new ++ r) = None) by (intros r; apply tree_below; assumption).
  assert (Hpre2 : ~ prefix_of (ds ++ [d]) (cs ++ [c])). { intros (r & X). apply Ho. unfold old. rewrite X, app_assoc. apply Hbelow. }
  destruct (rename_moves f path cs c ds d Hp Hc Hd Ho Hbelow Hpar Hpre Hpre2) as (f' & E & M). fold old new blk name in E, M. pose proof M as (M1 & M2 & M3).
  assert (N1 : ~ prefix_of old new). { intros (r & X). unfold old, new in X. rewrite <- app_assoc in X. apply app_inv_head in X. apply Hpre. exists r. exact X. }
  assert (N2 : ~ prefix_of new old). { intros (r & X). unfold old, new in X. rewrite <- app_assoc in X. apply app_inv_head in X. apply Hpre2. exists r. exact X. }
  exists f'. split; [exact E|]. split; [exact M|]. split.
  - destruct (rename_moves f' path ds d cs c Hp Hd Hc) as (f2 & E2 & (K1 & K2 & K3)).
    { fold new. specialize (M1 []). rewrite !app_nil_r in M1. rewrite M1. exact Ho. } { exact M2. }
    { rewrite M3.
      - apply (T (resolve path ++ cs) c). rewrite <- app_assoc. exact Ho.
      - unfold old. rewrite app_assoc. apply not_longer.
      - intros X. apply N2. eapply prefix_trans; [exact X|]. unfold old. rewrite app_assoc. apply prefix_app. }
    { exact Hpre2. } { exact Hpre. }
    fold old new in K1, K2, K3. exists f2. split; [exact E2|]. intros q.
    destruct (inside old q) eqn:Eo; [apply inside_prefix in Eo; destruct Eo as (r & ->); rewrite K1; apply M1|]. apply inside_not in Eo.
    destruct (inside new q) eqn:En; [apply inside_prefix in En; destruct En as (r & ->); rewrite K2, Hbelow; reflexivity|]. apply inside_not in En.
    rewrite K3 by assumption. apply M3; assumption.
  - intros e Hm1 Hm2 Hl1 Hl2.
    assert (Ea : alike f f' (path_join path blk) (path_join path name)). { intros x _. unfold blk, name. rewrite !resolve_slashed by assumption. apply M1. }
    split; [apply open_alike; assumption|]. split.
    + unfold big_file_open_block, big_block_open. rewrite strdup_id by assumption. rewrite Hm1.
      assert (Eg : forall x, plain x -> fs_get f' (resolve (path_join (path_join path blk) x)) = None).
      { intros x Hx. rewrite resolve_join by exact Hx. unfold blk. rewrite resolve_slashed by assumption. apply M2. }
      unfold file_contents, fopen_r, attr1_path, attr2_path, header_path. rewrite !Eg by (apply attr_plain || apply attr2_plain || apply header_plain). reflexivity.
    + intros b Hb. split; intros; [apply (read_alike e f f' _ _ _ _ _ _ Ea Hb)|apply (read_simple_alike e f f' _ _ _ _ _ _ Ea Hb)].
Qed.

Theorem C73_fails : forall f path blk new rc f', bigfile_rename f path blk new = (rc, f') -> rc <> 0 -> f' = f.
Proof. exact rename_fails. Qed.

Theorem C73_rm : forall f path bs, tree f -> path <> [] -> Forall (fun cs => cs <> [] /\ Forall entry_name cs) bs ->
  exists rc f', bigfile_rm f path (map slashed bs) = (rc, f') /\ removed f f' (map (fun cs => resolve path ++ cs) bs) /\ tree f'.
Proof.
  intros f path bs T Hp HF. unfold bigfile_rm. generalize 0. revert f T. induction bs as [|cs bs IH]; intros f T rc0.
  - exists rc0, f. split; [reflexivity|]. split; [|exact T]. split; [intros q p []|reflexivity].
  - inversion_clear HF. destruct H as [Hne Hc]. destruct (exists_last Hne) as (ds & d & ->).
    destruct (rm_one f path ds d Hp Hc) as (rc & f1 & E & R & _). destruct (R T) as [R1 R2]. cbn [map fold_left]. rewrite E.
    assert (T1 : tree f1).
    { intros p c Hg. assert (Hnot : ~ prefix_of (resolve path ++ ds ++ [d]) (p ++ [c])). { intros X. apply Hg. eapply R1; [left; reflexivity|exact X]. }
      rewrite R2 in Hg by (intros x [<-|[]]; exact Hnot). destruct (T p c Hg) as [T1 T2]. split; [|exact T2].
      rewrite R2; [exact T1|]. intros x [<-|[]] X. apply Hnot. eapply prefix_trans; [exact X|apply prefix_app]. }
    destruct (IH H0 f1 T1 rc) as (rc' & f2 & E2 & [Q1 Q2] & T2). exists rc', f2. split; [exact E2|]. split; [|exact T2]. split.
    + intros q p [<-|Hin] Hpre; [|eapply Q1; eauto]. destruct (existsb (fun x => inside (resolve path ++ x) q) bs) eqn:Ex.
      * apply existsb_exists in Ex. destruct Ex as (x & X1 & X2). apply inside_prefix in X2. eapply Q1; [|exact X2]. apply in_map_iff. exists x. auto.
      * rewrite Q2; [eapply R1; [left; reflexivity|exact Hpre]|]. intros y Hy Z. apply in_map_iff in Hy. destruct Hy as (x & <- & Hx).
        assert (existsb (fun x => inside (resolve path ++ x) q) bs = true) by (apply existsb_exists; exists x; split; [exact Hx|apply inside_prefix; exact Z]). congruence.
    + intros q Hq. rewrite Q2 by (intros p Hp'; apply Hq; right; exact Hp'). apply R2. intros p [<-|[]]. apply Hq. left. reflexivity.
Qed.

(* ------------------------------------------------------------------ C74 *)
(* Full statement: bigfile-repartition spreads each of the blocks named over
   the number of files asked for, keeping its rows and attributes, and changes
   nothing else; whenever it is interrupted no rows are lost.
   With -v, blocks made through the library whose names do not meet, and
   nothing under the names they have meanwhile. The commands of the parallel
   subshells run in any order: after n commands of a block's subshell, its rows
   and attributes are there, under the other name if n = 1; from n = 2 on the
   block has the number of files asked for and valid checksums; from n = 3 on
   nothing is left under the other name. *)
Theorem C74_repartition_partial : forall e f path ps, g_clean e -> path <> [] -> (length path <= Z.to_nat 8192)%nat -> Forall (plan_ok e f path) ps -> separate path ps ->
  (forall p r, In p ps -> fs_get f (p_place2 path p ++ r) = None) ->
  exists f1 tMs, make_all e f path ps = Ret (Some f1) /\ Forall2 (holds_after e) ps tMs /\
  forall Nfile fuel rowss, length rowss = length ps ->
    (forall k p t M rows, nth_error ps k = Some p -> nth_error tMs k = Some (t, M) -> nth_error rowss k = Some rows -> fits e path (files_for Nfile t) fuel p t rows) ->
  forall sched, exists sts f2, bigfile_repartition e true f1 path Nfile (map p_blk ps) fuel sched = Ret (sts, f2) /\
    (forall k p t M rows, nth_error ps k = Some p -> nth_error tMs k = Some (t, M) -> nth_error rowss k = Some rows ->
       let n := count_occ Nat.eq_dec sched k in let dt := dtype_normalize (e_me e) (p_type p) in let blk := if (n =? 1)%nat then p_blk2 p else p_blk p in
       nth_error sts k = Some (At (Nat.min 3 n)) /\
       block_rows e f2 path blk dt (p_nmemb p) rows /\ block_attrs e f2 path blk M /\
       ((2 <= n)%nat -> exists sizes, zlen sizes = files_for Nfile t /\ Forall (fun s => s = t_size t / files_for Nfile t \/ s = t_size t / files_for Nfile t + 1) sizes /\
          block_has e f2 path (p_blk p) dt (p_nmemb p) sizes rows) /\
       ((3 <= n)%nat -> forall r, fs_get f2 (p_place2 path p ++ r) = None)) /\
    (forall x, (forall p, In p ps -> ~ prefix_of (p_place path p) x /\ ~ prefix_of (p_place2 path p) x) -> fs_get f2 x = fs_get f1 x).
Proof.
  intros e f path ps Hg Hp Hl Hok Hsep Hbk. destruct (make_all_ok e path ps f Hg Hp Hok Hsep Hbk) as (f1 & ts & E & T & _).
  exists f1, (map fst ts). split; [exact E|]. split.
  { clear -T. induction T as [|p x ps ts H T IH]; constructor; auto. apply H. }
  intros Nfile fuel rowss Hlen Hfit sched.
  set (jobs := map (fun x => job_of e (fst (fst x)) (fst (fst (snd (fst x)))) (snd (snd (fst x))) (snd x)) (combine (combine ps ts) rowss)).
  assert (Lt : length ts = length ps) by (symmetry; eapply Forall2_length; exact T).
  assert (Hcomb : forall A B (l : list A) (l' : list B) k a b, nth_error l k = Some a -> nth_error l' k = Some b -> nth_error (combine l l') k = Some (a, b)).
  { intros A B l. induction l as [|y l IH]; intros [|y' l'] [|k] a b H1 H2; cbn in *; try discriminate; [congruence|]. apply IH; assumption. }
  assert (Hcomb' : forall A B (l : list A) (l' : list B) k a b, nth_error (combine l l') k = Some (a, b) -> nth_error l k = Some a /\ nth_error l' k = Some b).
  { intros A B l. induction l as [|y l IH]; intros [|y' l'] [|k] a b H1; cbn in *; try discriminate; [split; congruence|]. apply IH; assumption. }
  assert (Hj : forall k j, nth_error jobs k = Some j -> exists p t M d rows, j = job_of e p t d rows /\ nth_error ps k = Some p /\ nth_error ts k = Some (t, M, d) /\ nth_error rowss k = Some rows).
  { intros k j H. unfold jobs in H. rewrite nth_error_map in H. destruct (nth_error (combine (combine ps ts) rowss) k) as [[[p [[t M] d]] rows]|] eqn:Ec; [|discriminate H]. cbn in H. injection H as <-.
    apply Hcomb' in Ec. destruct Ec as [Ec E3]. apply Hcomb' in Ec. destruct Ec as [E1 E2]. exists p, t, M, d, rows. auto. }
  assert (Hj' : forall k p t M d rows, nth_error ps k = Some p -> nth_error ts k = Some (t, M, d) -> nth_error rowss k = Some rows -> nth_error jobs k = Some (job_of e p t d rows)).
  { intros k p t M d rows H1 H2 H3. unfold jobs. rewrite nth_error_map, (Hcomb _ _ _ _ k (p, (t, M, d)) rows); [reflexivity| |exact H3]. apply Hcomb; assumption. }
  assert (HT : forall k p t M d, nth_error ps k = Some p -> nth_error ts k = Some (t, M, d) -> (forall k, assoc k d = M k) /\ jinv e path (-1) (job_of e p t d []) (At 0) f1).
  { clear -T. induction T as [|p x ps ts H T IH]; intros [|k] p' t M d H1 H2; cbn in *; try discriminate; [injection H1 as <-; injection H2 as ->; apply H|]. eapply IH; eauto. }
  assert (Ljobs : length jobs = length ps). { unfold jobs. rewrite map_length, !combine_length, Lt, Hlen. lia. }
  assert (Hmap : map j_blk jobs = map p_blk ps).
  { apply nth_error_ext. intros k. rewrite !nth_error_map. destruct (nth_error jobs k) as [j|] eqn:Ek.
    - destruct (Hj k j Ek) as (p & t & M & d & rows & -> & H1 & _). rewrite H1. reflexivity.
    - apply nth_error_None in Ek. rewrite (proj2 (nth_error_None ps k)) by lia. reflexivity. }
  assert (Hjok : Forall (job_ok e path Nfile fuel) jobs).
  { apply Forall_forall. intros j Hin. destruct (In_nth_error _ _ Hin) as (k & Hk). destruct (Hj k j Hk) as (p & t & M & d & rows & -> & H1 & H2 & H3).
    assert (Hf : fits e path (files_for Nfile t) fuel p t rows). { eapply Hfit; [exact H1| |exact H3]. rewrite nth_error_map, H2. reflexivity. }
    rewrite Forall_forall in Hok. destruct (Hok p (nth_error_In _ _ H1)). destruct Hf. destruct po_make. constructor; try assumption; cbn; try assumption; auto.
    apply mk_dt. }
  assert (Hspr : spread path jobs).
  { intros i k a b Hik Ha Hb. destruct (Hj i a Ha) as (p & t & M & d & rows & -> & H1 & _). destruct (Hj k b Hb) as (p' & t' & M' & d' & rows' & -> & H1' & _). eapply separate_apart; eauto. }
  destruct (run_ok e path Nfile fuel Hg Hp Hl jobs Hjok Hspr sched (map (fun _ => At 0) (map p_blk ps)) f1) as (sts & f2 & E2 & [L2 I2] & C2 & F2).
  { split; [rewrite !map_length; symmetry; exact Ljobs|]. intros k j st Hk Hst. destruct (Hj k j Hk) as (p & t & M & d & rows & -> & H1 & H2 & _).
    rewrite !nth_error_map, H1 in Hst. injection Hst as <-. exact (proj2 (HT k p t M d H1 H2)). }
  exists sts, f2. split; [unfold bigfile_repartition; rewrite <- Hmap at 1; exact E2|]. split.
  - intros k p t M rows H1 H2 H3 n dt blk. rewrite nth_error_map in H2. destruct (nth_error ts k) as [[tM d]|] eqn:Et; [|discriminate H2]. cbn in H2. injection H2 as ->.
    pose proof (Hj' k p t M d rows H1 Et H3) as Hk. pose proof (nth_error_In _ _ Hk) as Hin. rewrite Forall_forall in Hjok. specialize (Hjok _ Hin).
    assert (Hst : nth_error sts k = Some (At (Nat.min 3 n))).
    { apply (C2 k _ 0%nat Hk); [|lia]. rewrite !nth_error_map, H1. reflexivity. }
    pose proof (I2 k _ _ Hk Hst) as I. destruct (HT k p t M d H1 Et) as [HM I0].
    destruct (mid_rows e path Nfile (job_of e p t d rows) (At (Nat.min 3 n)) f2 blk M Hp Hl fuel Hjok HM I) as [R1 R2].
    { intros X. assert (X1 : Nat.min 3 n = 1%nat) by congruence. unfold blk. replace (n =? 1)%nat with true by (symmetry; apply Nat.eqb_eq; lia). reflexivity. }
    { intros X. unfold blk. destruct (Nat.eqb_spec n 1) as [->|Hn]; [exfalso; apply X; reflexivity|reflexivity]. }
    split; [exact Hst|]. split; [exact R1|]. split; [exact R2|]. destruct I0 as (_ & (b0 & F0) & _). destruct I as (W & I). split.
    + intros Hn. exists (j_cs Nfile (job_of e p t d rows)). destruct (j_even e path Nfile fuel (job_of e p t d rows) f1 b0 Hjok F0) as [V1 V2]. split; [exact V1|]. split; [exact V2|].
      apply (done_has e path Nfile fuel (job_of e p t d rows) f2 Hp Hl Hjok W). destruct (Nat.min 3 n) as [|[|[|m]]] eqn:Em; [lia|lia| |]; apply I.
    + intros Hn r. replace (Nat.min 3 n) with 3%nat in I by lia. apply I.
  - intros x Hx. apply F2. intros j Hin. destruct (In_nth_error _ _ Hin) as (k & Hk). destruct (Hj k j Hk) as (p & t & M & d & rows & -> & H1 & _). apply (Hx p). eapply nth_error_In; exact H1.
Qed.

(* Without -v the block only gets the other name: the copy is not started,
   since the script gives bigfile-copy one argument too many. *)
Theorem C74_quiet_refuted : forall e f path cs c Nfile fuel n, tree f -> path <> [] -> Forall entry_name (cs ++ [c]) ->
  let old := resolve path ++ cs ++ [c] in let new := resolve path ++ cs ++ [c ++ lit "-REPBAK"] in
  fs_get f old <> None -> fs_get f new = None ->
  exists f', bigfile_repartition e false f path Nfile [slashed (cs ++ [c])] fuel (repeat 0%nat (2 + n)) = Ret ([Stopped], f') /\ moved f f' old new.
Proof.
  intros e f path cs c Nfile fuel n T Hp Hc old new Ho Hn.
  assert (Hc2 : Forall entry_name (cs ++ [bak c])). { apply Forall_app in Hc. destruct Hc as [H1 H2]. apply Forall_app. split; [exact H1|]. constructor; [|constructor]. inversion_clear H2. apply bak_entry. assumption. }
  destruct (rename_moves f path cs c cs (bak c) Hp Hc Hc2 Ho) as (f' & E & M).
  { intros r. apply tree_below; assumption. } { apply (T (resolve path ++ cs) c). rewrite <- app_assoc. exact Ho. }
  { intros X. apply same_len_prefix in X. symmetry in X. exact (bak_neq _ X). } { intros X. apply same_len_prefix in X. exact (bak_neq _ X). }
  exists f'. split; [|exact M]. unfold bigfile_repartition. cbn [map plus repeat repart_run nth_error stage_step repart_cmd]. cbn [Nat.leb].
  rewrite bak_slashed, E. cbn [bind Z.eqb update repart_run nth_error stage_step Nat.leb repart_cmd].
  induction n as [|n IH]; [reflexivity|]. cbn [repeat repart_run nth_error stage_step bind update]. exact IH.
Qed.

(* A block some of whose rows were never written: the copy fails, and the block
   stays, complete, under the other name. *)
Theorem C74_missing_partial : forall e f path p, g_clean e -> path <> [] -> (length path <= Z.to_nat 8192)%nat -> plan_ok e f path p ->
  (forall r, fs_get f (p_place2 path p ++ r) = None) ->
  let dt := dtype_normalize (e_me e) (p_type p) in let w := itemsize (e_me e) dt * p_nmemb p in
  exists f1 t M, make_and_use e f path (p_blk p) (p_type p) (p_nmemb p) (p_sizes p) (p_rounds p) = Ret (Some (0, f1)) /\ holds_after e p (t, M) /\
  forall Nfile fuel n, let N := files_for Nfile t in
    (exists r, 0 <= r < t_size t /\ absent t r) -> (length (path_join path (p_blk2 p)) <= Z.to_nat 8192)%nat -> w <= 2 ^ 28 ->
    0 < N -> N <= 2 ^ 24 -> t_size t * N < 2 ^ 64 -> t_size t * p_nmemb p < 2 ^ 63 -> t_size t < Z.of_nat fuel ->
  exists f2, bigfile_repartition e true f1 path Nfile [p_blk p] fuel (repeat 0%nat (2 + n)) = Ret ([Stopped], f2) /\
    forall r x, fs_get f1 (p_place path p ++ r) = Some x -> fs_get f2 (p_place2 path p ++ r) = Some x.
Proof.
  intros e f path p Hg Hp Hl [] Hbk dt w.
  destruct (live_kept e f path (p_blk p) (p_type p) (p_nmemb p) (p_sizes p) (p_rounds p) Hg po_make po_layout po_files po_rounds po_attrs)
    as (f1 & t & M & dd & b0 & E & L & F & A & O & K & W). exists f1, t, M. split; [exact E|]. split; [exact L|].
  intros Nfile fuel n N Habs Hlen Hw HN HN2 Hprod Hsm Hfu. fold dt in F.
  set (j := job_of e p t dd []). assert (Hj : job_names j) by (split; assumption).
  assert (I0 : jinv e path Nfile j (At 0) f1).
  { split.
    - intros q Hq. apply W. fold (p_blk p). change (path_join path (p_blk p)) with (j_base path j). rewrite base_old by assumption. unfold j_old. rewrite app_assoc. eapply prefix_trans; [exact Hq|apply prefix_app].
    - split; [exists b0; assert (F2 : fresh e (path_join path (p_blk p)) dt (p_nmemb p) (2 ^ 61) t dd f1 b0) by (destruct F; constructor; auto; lia); exact F2|]. eapply bak_self; eauto. }
  assert (Hfit : job_fit e path Nfile fuel (exists r, 0 <= r < t_size (j_t j) /\ absent (j_t j) r) j).
  { destruct po_make. constructor; try assumption; cbn; auto. apply mk_dt. }
  destruct (cmd_rename e path Nfile fuel Hp _ j f1 Hfit I0) as (f2 & E2 & I1 & _ & M2).
  destruct (cmd_copy_fails e path Nfile fuel Hp Hl j f2 Hfit HN I1) as (f3 & E3 & _ & M3).
  exists f3. split; [|intros r x Hx; change (p_place2 path p) with (j_bak path j); rewrite M3, M2; exact Hx].
  change (p_blk p) with (j_blk j). unfold bigfile_repartition. cbn [map plus repeat repart_run nth_error stage_step]. cbn [Nat.leb].
  rewrite E2. cbn [bind Z.eqb update repart_run nth_error stage_step Nat.leb]. rewrite E3. cbn [bind Z.eqb update].
  induction n as [|n IH]; [reflexivity|]. cbn [repeat repart_run nth_error stage_step bind update]. exact IH.
Qed.

(* ------------------------------------------------------------ concrete cases *)
(* Two blocks of three rows in three files, in a file that has another block. *)
Definition ex_plan (dir : list bytes) (name : bytes) : plan := mkPlan dir name (lit ">i4") 2 ex_sizes3 ex_rounds.
Definition ex_pa : plan := ex_plan [] (lit "a").
Definition ex_pxy : plan := ex_plan [lit "x"] (lit "y").
Definition made_of (ps : list plan) : fs := match make_all ex_e ex_f1 (lit "d") ps with Ret (Some g) => g | _ => [] end.
Definition ex_two : fs := made_of [ex_pa; ex_pxy].
Lemma ex_make_a : makeable ex_e ex_f1 (lit "d") (lit "a") (lit ">i4") 2.
Proof.
  destruct ex_makeable2. constructor; auto.
  - split; [reflexivity|]. split; [change (length (path_join (lit "d") (lit "a"))) with 3%nat; lia|reflexivity].
  - split.
    + intros q c [r Hq] X. destruct q as [|a q]; [discriminate X|]. injection Hq as <- Hq. destruct q as [|a q]; [vm_compute in X; discriminate X|]. injection Hq as <- Hq. destruct q; [vm_compute in X; discriminate X|discriminate Hq].
    + intros q Hq. destruct (RecNewFacts.in_block_app _ _ (or_introl Hq)) as (c & ->). change (resolve (path_join (lit "d") (lit "a"))) with [lit "d"; lit "a"]. vm_compute. discriminate.
Qed.
Lemma name_checked c : name_check c = true -> entry_name c.
Proof. intros H. apply andb_prop in H. destruct H as [A B]. split; [destruct (is_dot c); auto; discriminate|]. intros X. rewrite forallb_forall in B. specialize (B _ X). rewrite byte_eqb_refl in B. discriminate. Qed.
Lemma ex_plans_ok : Forall (plan_ok ex_e ex_f1 (lit "d")) [ex_pa; ex_pxy].
Proof.
  assert (H : forall dir name, Forall entry_name dir -> entry_name name -> makeable ex_e ex_f1 (lit "d") (slashed (dir ++ [name])) (lit ">i4") 2 -> plan_ok ex_e ex_f1 (lit "d") (ex_plan dir name)).
  { intros dir name H1 H2 H3. constructor; [exact H1|exact H2|exact H3| | | |].
    - split; [repeat constructor; ex_neg|split; reflexivity].
    - vm_compute. congruence.
    - split; [exact ex_sops_ok|split; [exact ex_full_ok|exact I]].
    - vm_compute. congruence. }
  constructor; [|constructor; [|constructor]]; (apply H; [repeat constructor; apply name_checked; reflexivity|apply name_checked; reflexivity|]); [exact ex_make_a|exact ex_makeable2].
Qed.
Lemma ex_separate : separate (lit "d") [ex_pa; ex_pxy].
Proof.
  intros i k p q x y Hik Hp Hq Hx Hy (r & Hr).
  destruct i as [|[|[|i]]]; cbn in Hp; try discriminate Hp; injection Hp as <-; destruct k as [|[|[|k]]]; cbn in Hq; try discriminate Hq; injection Hq as <-; try contradiction;
  destruct Hx as [->| ->]; destruct Hy as [->| ->]; discriminate Hr.
Qed.
Lemma ex_holds dir name t M : holds_after ex_e (ex_plan dir name) (t, M) -> t = with_rows (new_table ex_sizes3) 0 ex_rows.
Proof.
  unfold holds_after. cbn [fst snd ex_plan p_type p_nmemb p_sizes p_rounds]. unfold ex_rounds. intros H. inversion H as [| |? ? ? ? ? ? H1]; subst.
  inversion H1 as [|? ? ? ? ? ? ? ? H2 H3|]; subst. inversion H3; subst. eapply ex_full_table. exact H2.
Qed.
Definition opened (r : out (option block)) : option block := match r with Ret o => o | _ => None end.

Example C73_example : tree ex_two /\ Forall entry_name [lit "a"] /\ Forall entry_name [lit "x"; lit "z"] /\
  fs_get ex_two [lit "d"; lit "a"] = Some Dir /\ fs_get ex_two [lit "d"; lit "x"; lit "z"] = None /\ fs_get ex_two [lit "d"; lit "x"] = Some Dir /\
  exists f' b, bigfile_rename ex_two (lit "d") (lit "a") (lit "x/z") = (0, f') /\ big_file_open_block ex_e f' (lit "d") (lit "x/z") = Ret (Some b) /\ b_size b = 3 /\
  exists f2, bigfile_rm f' (lit "d") [lit "x/z"; lit "nothing"; lit "x/y"] = (0, f2) /\ zlen f2 = zlen ex_f1 + 1.
Proof.
  split; [apply tree_check; vm_compute; reflexivity|]. split; [repeat constructor; apply name_checked; reflexivity|]. split; [repeat (constructor; [apply name_checked; reflexivity|]); constructor|].
  split; [vm_compute; reflexivity|]. split; [vm_compute; reflexivity|]. split; [vm_compute; reflexivity|].
  eexists _, _. split; [vm_compute; reflexivity|]. split; [vm_compute; reflexivity|]. split; [reflexivity|]. eexists. split; vm_compute; reflexivity.
Qed.
(* If there is a block of the new name, the program still exits with 0, but the
   new name still is the other block, and the block is inside it. *)
Theorem C73_existing_refuted : exists e f path blk new f' b1 b2, tree f /\
  big_file_open_block e f path blk = Ret (Some b1) /\ b_size b1 = 3 /\ big_file_open_block e f path new = Ret (Some b2) /\ b_size b2 = 6 /\
  bigfile_rename f path blk new = (0, f') /\ big_file_open_block e f' path new = Ret (Some b2) /\ big_file_open_block e f' path blk = Ret None /\
  big_file_open_block e f' path (new ++ lit "/" ++ blk) = Ret (Some (at_path (path_join path (new ++ lit "/" ++ blk)) b1)).
Proof.
  set (f := made_of [ex_pa; mkPlan [] (lit "b") (lit ">i4") 2 [4; 2] []]).
  exists ex_e, f, (lit "d"), (lit "a"), (lit "b"). eexists _, _, _. split; [apply tree_check; vm_compute; reflexivity|].
  split; [vm_compute; reflexivity|]. split; [reflexivity|]. split; [vm_compute; reflexivity|]. split; [reflexivity|].
  split; [vm_compute; reflexivity|]. split; [vm_compute; reflexivity|]. split; vm_compute; reflexivity.
Qed.

Example C74_example : g_clean ex_e /\ Forall (plan_ok ex_e ex_f1 (lit "d")) [ex_pa; ex_pxy] /\ separate (lit "d") [ex_pa; ex_pxy] /\
  (forall p r, In p [ex_pa; ex_pxy] -> fs_get ex_f1 (p_place2 (lit "d") p ++ r) = None) /\
  (forall p t M, In p [ex_pa; ex_pxy] -> holds_after ex_e p (t, M) -> fits ex_e (lit "d") (files_for 2 t) 10 p t ex_rows) /\
  make_all ex_e ex_f1 (lit "d") [ex_pa; ex_pxy] = Ret (Some ex_two) /\
  (* the two subshells take turns *)
  exists f2 b, bigfile_repartition ex_e true ex_two (lit "d") 2 [lit "a"; lit "x/y"] 10 [0; 1; 1; 0; 0]%nat = Ret ([At 3; At 2], f2) /\
    big_file_open_block ex_e f2 (lit "d") (lit "x/y") = Ret (Some b) /\ firstn 2 (b_fsize b) = [1; 2] /\ fs_get f2 [lit "d"; lit "x"; lit "y-REPBAK"] = Some Dir.
Proof.
  split; [exact ex_clean|]. split; [exact ex_plans_ok|]. split; [exact ex_separate|]. split.
  { intros p r [<-|[<-|[]]]; vm_compute; destruct r; reflexivity. }
  split.
  { intros p t M [<-|[<-|[]]] H; pose proof (ex_holds _ _ _ _ H) as ->; (constructor;
    [apply ex_shows; reflexivity|apply Nat.leb_le; vm_compute; reflexivity|vm_compute; congruence|right; vm_compute; reflexivity|vm_compute; congruence|vm_compute; reflexivity|vm_compute; reflexivity|vm_compute; reflexivity]). }
  split; [vm_compute; reflexivity|]. eexists _, _. split; [vm_compute; reflexivity|]. split; [vm_compute; reflexivity|]. split; vm_compute; reflexivity.
Qed.

(* If a block of the other name is there already, that block is copied to the
   name, and then both are removed: the three rows are lost. *)
Theorem C74_backup_refuted : exists e f path blk f2 b1 b2, tree f /\ big_file_open_block e f path blk = Ret (Some b1) /\ b_size b1 = 3 /\
  bigfile_repartition e true f path 2 [blk] 10 [0; 0; 0]%nat = Ret ([At 3], f2) /\ big_file_open_block e f2 path blk = Ret (Some b2) /\ b_size b2 = 0 /\
  forall r, fs_get f2 (resolve (path_join path (bak blk)) ++ r) = None.
Proof.
  set (f := made_of [ex_pa; mkPlan [] (lit "a-REPBAK") (lit ">i4") 2 [0] []]).
  exists ex_e, f, (lit "d"), (lit "a"). eexists _, _, _. split; [apply tree_check; vm_compute; reflexivity|].
  split; [vm_compute; reflexivity|]. split; [reflexivity|]. split; [vm_compute; reflexivity|]. split; [vm_compute; reflexivity|]. split; [reflexivity|].
  intros r. vm_compute. destruct r; reflexivity.
Qed.

(* A block inside the block is lost. *)
Theorem C74_nested_refuted : exists e f path blk nested f2 b1, tree f /\ big_file_open_block e f path nested = Ret (Some b1) /\ b_size b1 = 3 /\
  bigfile_repartition e true f path 2 [blk] 10 [0; 0; 0]%nat = Ret ([At 3], f2) /\ big_file_open_block e f2 path nested = Ret None.
Proof.
  set (f := made_of [ex_plan [] (lit "a"); ex_plan [lit "a"] (lit "b")]).
  exists ex_e, f, (lit "d"), (lit "a"), (lit "a/b"). eexists _, _. split; [apply tree_check; vm_compute; reflexivity|].
  split; [vm_compute; reflexivity|]. split; [reflexivity|]. split; [vm_compute; reflexivity|]. vm_compute. reflexivity.
Qed.

Print Assumptions C73_rename_partial.
Print Assumptions C73_fails.
Print Assumptions C73_rm.
Print Assumptions C73_existing_refuted.
Print Assumptions C74_repartition_partial.
Print Assumptions C74_missing_partial.
Print Assumptions C74_quiet_refuted.
Print Assumptions C74_backup_refuted.
Print Assumptions C74_nested_refuted.
