(* Repartitioning blocks by parallel subshells: every schedule. *)
From Coq.Strings Require Import Byte String.
From Coq Require Import List ZArith Lia Bool ZifyBool ZifyNat.
From Verif Require Import Base BaseFacts Dtype Cast Array FS Fmt Attr Block File Split Spec AttrSpec OpenSpec SessSpec HistSpec FileSpec Py PySpec Util UtilSpec
  FSFacts DtypeFacts ArrayFacts SeekFacts ConvFacts WriteFacts ReadFacts IOFacts AttrFacts AttrFileFacts TextFacts HeaderFacts TableFacts OpenFacts ReopenFacts SessFacts HistFacts AggFacts MpiFacts StepFacts MiscFacts
  FileFacts FrameFacts RecNewFacts PyFacts PyNewFacts ListFacts UtilFacts CopyFacts Repart RepartSpec RepartFacts.
Import ListNotations.
Open Scope Z_scope.
Local Open Scope out_scope.

(* ---------------------------------------------------------------- names *)
Lemma bak_slashed cs c : bak (slashed (cs ++ [c])) = slashed (cs ++ [bak c]).
Proof.
  unfold bak. destruct cs as [|x cs]; [reflexivity|]. rewrite !slashed_last by discriminate. rewrite <- app_assoc. reflexivity.
Qed.
Lemma bak_entry c : entry_name c -> entry_name (bak c).
Proof.
  intros [H1 H2]. unfold bak. split.
  - destruct c as [|x c]; [discriminate|]. cbn [app is_dot]. destruct c; reflexivity.
  - intros X. apply in_app_or in X. destruct X as [X|X]; [auto|]. cbn in X. repeat (destruct X as [X|X]; [discriminate X|]). exact X.
Qed.
Lemma bak_neq c : bak c <> c.
Proof. intros X. apply (f_equal (@length byte)) in X. unfold bak in X. rewrite app_length in X. cbn in X. lia. Qed.
Lemma same_len_prefix (p : path) c c' : prefix_of (p ++ [c]) (p ++ [c']) -> c = c'.
Proof. intros (r & X). rewrite <- app_assoc in X. apply app_inv_head in X. injection X as -> _. reflexivity. Qed.
Lemma bak_meta s : s <> [] -> is_meta (s ++ lit "-REPBAK") = false.
Proof.
  intros H. unfold is_meta, endswith. rewrite rev_app_distr. apply orb_false_iff. split; [reflexivity|].
  destruct (bytes_eqb _ _) eqn:E; [|reflexivity]. apply bytes_eqb_eq in E. apply (f_equal (@length byte)) in E. rewrite app_length in E. cbn in E. lia.
Qed.

Record job : Type := mkJob { j_dir : list bytes; j_name : bytes; j_dt : bytes; j_nmemb : Z; j_t : table; j_d : list entry; j_rows : list bytes }.

Section Jobs.
Variables (e : env) (path : bytes) (Nfile : Z) (fuel : nat).
Hypothesis Hg : g_clean e.
Hypothesis Hpath : path <> [].
Hypothesis Hpl : (length path <= Z.to_nat 8192)%nat.
Definition j_blk (j : job) : bytes := slashed (j_dir j ++ [j_name j]).
Definition j_base (j : job) : bytes := path_join path (j_blk j).
Definition j_bbase (j : job) : bytes := path_join path (bak (j_blk j)).
Definition j_old (j : job) : FS.path := resolve path ++ j_dir j ++ [j_name j].
Definition j_bak (j : job) : FS.path := resolve path ++ j_dir j ++ [bak (j_name j)].
Definition j_w (j : job) : Z := itemsize (e_me e) (j_dt j) * j_nmemb j.
Definition j_N (j : job) : Z := pieces (zlen (t_sizes (j_t j))) Nfile.
Definition j_cs (j : job) : list Z := copy_sizes (t_size (j_t j)) (j_N j).

Record job_fit (full : Prop) (j : job) : Prop := {
  jo_dir : Forall entry_name (j_dir j);
  jo_name : entry_name (j_name j);
  jo_block : block_name (j_base j);
  jo_len : (length (j_bbase j) <= Z.to_nat 8192)%nat;
  jo_items : 0 < j_nmemb j < 2 ^ 31;
  jo_type : header_type (j_dt j);
  jo_norm : dtype_normalize (e_me e) (j_dt j) = j_dt j;
  jo_dt : dt_ok (e_me e) (j_dt j);
  jo_chunk : j_w j <= e_chunk e;
  jo_width : j_w j <= 2 ^ 28;
  jo_pieces : j_N j = 0 /\ t_size (j_t j) = 0 \/ 0 < j_N j;
  jo_many : j_N j <= 2 ^ 24;
  jo_prod : t_size (j_t j) * j_N j < 2 ^ 64;
  jo_rows : full;
  jo_small : t_size (j_t j) * j_nmemb j < 2 ^ 63;
  jo_fuel : t_size (j_t j) < Z.of_nat fuel
}.
Definition job_ok (j : job) : Prop := job_fit (shows_all (j_w j) (j_t j) (j_rows j)) j.
Definition done (j : job) (f : fs) : Prop :=
  exists t' b', fresh e (j_base j) (j_dt j) (j_nmemb j) (2 ^ 61) t' (j_d j) f b' /\ t_sizes t' = j_cs j /\ shows_all (j_w j) t' (j_rows j) /\ sums_ok f (j_base j) (j_cs j) (b_fchecksum b').
Definition jinv (j : job) (st : stage) (f : fs) : Prop :=
  way_made f (resolve path ++ j_dir j) /\
  match st with
  | At 0 => (exists b0, fresh e (j_base j) (j_dt j) (j_nmemb j) (2 ^ 61) (j_t j) (j_d j) f b0) /\ forall r, fs_get f (j_bak j ++ r) = None
  | At 1 => (exists b0, fresh e (j_bbase j) (j_dt j) (j_nmemb j) (2 ^ 61) (j_t j) (j_d j) f b0) /\ forall r, fs_get f (j_old j ++ r) = None
  | At 2 => done j f /\ fs_get f (j_bak j) <> None
  | At _ => done j f /\ forall r, fs_get f (j_bak j ++ r) = None
  | Stopped => False
  end.

Definition job_names (j : job) : Prop := Forall entry_name (j_dir j) /\ entry_name (j_name j).
Lemma fit_names full j : job_fit full j -> job_names j. Proof. intros []. split; assumption. Qed.
Lemma ok_names j : job_ok j -> job_names j. Proof. apply fit_names. Qed.
Hint Resolve ok_names : core.
Lemma names_ok j : job_names j -> Forall entry_name (j_dir j ++ [j_name j]) /\ Forall entry_name (j_dir j ++ [bak (j_name j)]).
Proof. intros [A B]. split; apply Forall_app; split; auto using bak_entry. Qed.
Lemma base_old j : job_names j -> resolve (j_base j) = j_old j.
Proof. intros H. apply names_ok in H. unfold j_base, j_blk. rewrite resolve_slashed by tauto. reflexivity. Qed.
Lemma bbase_bak j : job_names j -> resolve (j_bbase j) = j_bak j.
Proof. intros H. apply names_ok in H. unfold j_bbase, j_blk. rewrite bak_slashed, resolve_slashed by tauto. reflexivity. Qed.
Lemma old_bak j : ~ prefix_of (j_old j) (j_bak j).
Proof. unfold j_old, j_bak. rewrite !app_assoc. intros X. apply same_len_prefix in X. symmetry in X. exact (bak_neq _ X). Qed.
Lemma bak_old j : ~ prefix_of (j_bak j) (j_old j).
Proof. unfold j_old, j_bak. rewrite !app_assoc. intros X. apply same_len_prefix in X. exact (bak_neq _ X). Qed.
Lemma old_long j : ~ prefix_of (j_old j) (resolve path ++ j_dir j).
Proof. unfold j_old. rewrite app_assoc. apply not_longer. Qed.
Lemma bak_long j : ~ prefix_of (j_bak j) (resolve path ++ j_dir j).
Proof. unfold j_bak. rewrite app_assoc. apply not_longer. Qed.
Lemma way_below (p q x : FS.path) : ~ prefix_of p q -> prefix_of x q -> ~ prefix_of p x.
Proof. intros H X Y. apply H. eapply prefix_trans; eauto. Qed.

Lemma bbase_name full j : job_fit full j -> block_name (j_bbase j).
Proof.
  intros H. pose proof (jo_len _ _ H) as HL. destruct (jo_block _ _ H) as (B1 & B2 & B3).
  assert (E : j_bbase j = j_base j ++ lit "-REPBAK").
  { unfold j_bbase, j_base, path_join, bak. destruct (rev path) as [|c r] eqn:E; [apply (f_equal (@rev byte)) in E; rewrite rev_involutive in E; contradiction|].
    destruct (Byte.eqb c "/"); rewrite <- ?app_assoc; cbn [app]; rewrite <- ?app_assoc; reflexivity. }
  split; [|split; [exact HL|]].
  - rewrite E. apply bak_meta. intros X. rewrite X in B1. discriminate B1.
  - rewrite E. unfold has_blank in *. rewrite existsb_app, B3. reflexivity.
Qed.

(* ------------------------------------------------------- changes elsewhere *)
Lemma fresh_zone base dt nmemb B t d f f' b : (forall x, prefix_of (resolve base) x -> fs_get f' x = fs_get f x) ->
  fresh e base dt nmemb B t d f b -> fresh e base dt nmemb B t d f' b.
Proof.
  intros H. apply fresh_same. split; [apply H, prefix_refl|]. intros p Hp. apply H. destruct (in_block_app base p Hp) as (c & ->). apply prefix_app.
Qed.
Lemma sums_zone base sizes f f' l : (forall x, prefix_of (resolve base) x -> fs_get f' x = fs_get f x) -> sums_ok f base sizes l -> sums_ok f' base sizes l.
Proof.
  intros H S i c Hi Hc. apply S; [exact Hi|]. rewrite <- Hc. unfold data_file. rewrite H; [reflexivity|]. unfold data_path. rewrite resolve_join by (apply print_06X_plain; lia). apply prefix_app.
Qed.
Lemma done_zone j f f' : job_names j -> (forall x, prefix_of (j_old j) x -> fs_get f' x = fs_get f x) -> done j f -> done j f'.
Proof.
  intros Hj H (t' & b' & F & S & R & C). rewrite <- (base_old j Hj) in H. exists t', b'. split; [eapply fresh_zone; eauto|]. split; [exact S|]. split; [exact R|]. eapply sums_zone; eauto.
Qed.
Lemma jinv_zone j st f f' : job_names j -> jinv j st f ->
  (forall x, prefix_of (j_old j) x \/ prefix_of (j_bak j) x \/ prefix_of x (resolve path ++ j_dir j) -> fs_get f' x = fs_get f x) -> jinv j st f'.
Proof.
  intros Hj [W I] H. split; [intros q Hq; rewrite H by auto; auto|].
  assert (HB : forall r, fs_get f (j_bak j ++ r) = None -> fs_get f' (j_bak j ++ r) = None) by (intros r Hr; rewrite H; [exact Hr|right; left; apply prefix_app]).
  assert (HO : forall x, prefix_of (j_old j) x -> fs_get f' x = fs_get f x) by (intros x Hx; apply H; auto).
  destruct st as [[|[|[|n]]]|].
  - destruct I as [(b0 & F) G]. split; [|auto]. exists b0. eapply fresh_zone; [|exact F]. rewrite base_old by auto. exact HO.
  - destruct I as [(b0 & F) G]. split; [|intros r; rewrite HO by apply prefix_app; auto]. exists b0. eapply fresh_zone; [|exact F]. rewrite bbase_bak by auto. auto.
  - destruct I as [D G]. split; [eapply done_zone; eauto|]. rewrite H by (right; left; apply prefix_refl). exact G.
  - destruct I as [D G]. split; [eapply done_zone; eauto|]. auto.
  - exact I.
Qed.

(* ------------------------------------------------------- one command *)
Definition only_below (f f' : fs) (j : job) : Prop := forall x, ~ prefix_of (j_old j) x -> ~ prefix_of (j_bak j) x -> fs_get f' x = fs_get f x.
Lemma below_way f f' j : only_below f f' j -> way_made f (resolve path ++ j_dir j) -> way_made f' (resolve path ++ j_dir j).
Proof. intros H W q Hq. rewrite H; [auto| |]; eapply way_below; eauto using old_long, bak_long. Qed.

Lemma cmd_rename full j f : job_fit full j -> jinv j (At 0) f -> exists f', repart_cmd e true f path Nfile (j_blk j) 0 fuel = Ret (0, f') /\ jinv j (At 1) f' /\ only_below f f' j /\
  forall r, fs_get f' (j_bak j ++ r) = fs_get f (j_old j ++ r).
Proof.
  intros Hj (W & (b0 & F) & Hn). pose proof (fit_names _ _ Hj) as Hnm. destruct (names_ok j ltac:(auto)) as [N1 N2]. pose proof (fr_inv _ _ _ _ _ _ _ _ _ F) as I. pose proof (proj1 (hv_dir _ _ _ _ _ _ _ _ I)) as Hd. rewrite base_old in Hd by auto.
  destruct (rename_moves f path (j_dir j) (j_name j) (j_dir j) (bak (j_name j))) as (f' & E & (M1 & M2 & M3)); auto.
  { unfold j_old in Hd. congruence. } { apply W, prefix_refl. }
  { intros X. apply same_len_prefix in X. symmetry in X. exact (bak_neq _ X). } { intros X. apply same_len_prefix in X. exact (bak_neq _ X). }
  exists f'. fold (j_old j) (j_bak j) in M1, M2, M3. unfold repart_cmd, j_blk. rewrite bak_slashed, E. split; [reflexivity|].
  assert (Ho : only_below f f' j) by (intros x; apply M3). split; [|split; [exact Ho|exact M1]]. split; [eapply below_way; eauto|]. split; [|exact M2].
  exists (at_path (j_bbase j) b0). eapply fresh_moved; [| |exact F].
  - intros c _. rewrite base_old, bbase_bak by auto. apply M1.
  - rewrite base_old, bbase_bak by auto. specialize (M1 []). rewrite !app_nil_r in M1. exact M1.
Qed.

Lemma path_open f p : way_made f p -> prefix_of (resolve path) p -> big_file_open f path = Some path.
Proof. intros W H. unfold big_file_open. destruct path as [|x l]; [contradiction|]. rewrite (W _ H), strdup_id by exact Hpl. reflexivity. Qed.
Lemma job_makeable full j f : job_fit full j -> jinv j (At 1) f -> makeable e f path (j_blk j) (j_dt j) (j_nmemb j).
Proof.
  intros Hj (W & _ & Hn). pose proof (fit_names _ _ Hj) as Hnm. pose proof Hj as []. assert (X31 : 2 ^ 28 < 2 ^ 31) by (vm_compute; reflexivity).
  assert (Hin : forall p, in_block (j_base j) p -> fs_get f p = None). { intros p Hp. destruct (in_block_app (j_base j) p Hp) as (c & ->). rewrite base_old by auto. apply Hn. }
  constructor; auto; rewrite ?jo_norm0; fold (j_base j); auto.
  - intros q c Hq. rewrite W; [discriminate|]. eapply prefix_trans; [exact Hq|apply prefix_app].
  - split.
    + rewrite base_old by auto. intros q c Hq. destruct Hq as (r & Hq). destruct r as [|y r] using rev_ind.
      * rewrite app_nil_r in Hq. rewrite <- Hq. specialize (Hn []). rewrite app_nil_r in Hn. rewrite Hn. discriminate.
      * clear IHr. unfold j_old in Hq. rewrite !app_assoc in Hq. apply app_inj_tail in Hq. rewrite W; [discriminate|]. exists r. apply Hq.
    + intros p Hp. rewrite Hin by (left; exact Hp). discriminate.
  - apply Hin. right. reflexivity.
  - change (itemsize (e_me e) (j_dt j) * j_nmemb j) with (j_w j). lia.
Qed.
Lemma kept_below j f f' : job_names j -> way_made f (resolve path ++ j_dir j) -> kept (j_base j) f f' -> forall x, ~ prefix_of (j_old j) x -> fs_get f' x = fs_get f x.
Proof.
  intros Hj W [K1 K2] x Hx. rewrite <- (base_old j Hj) in Hx. assert (Ho : ~ own_file (j_base j) x).
  { intros X. destruct (in_block_app (j_base j) x (or_introl X)) as (c & ->). apply Hx, prefix_app. }
  destruct (fs_get f x) as [n|] eqn:E; [apply K1; auto|]. destruct (fs_get f' x) as [n|] eqn:E'; [|reflexivity]. exfalso.
  destruct (K2 x n Ho E E') as [_ (r & Hr)]. rewrite base_old in Hr, Hx by auto. destruct r as [|y r] using rev_ind.
  - rewrite app_nil_r in Hr. apply Hx. rewrite Hr. apply prefix_refl.
  - clear IHr. unfold j_old in Hr. rewrite !app_assoc in Hr. apply app_inj_tail in Hr. rewrite W in E; [discriminate|]. exists r. apply Hr.
Qed.
Lemma cmd_copy j f : job_ok j -> jinv j (At 1) f -> exists f', repart_cmd e true f path Nfile (j_blk j) 1 fuel = Ret (0, f') /\ jinv j (At 2) f' /\ only_below f f' j.
Proof.
  intros Hj I1. pose proof (job_makeable _ j f Hj I1) as Hmk. destruct I1 as (W & (b0 & F) & Hn). pose proof Hj as [].
  assert (X : 256 * 1024 * 1024 = 2 ^ 28) by reflexivity. assert (X2 : 2 ^ 28 < 2 ^ 63) by (vm_compute; reflexivity).
  assert (X3 : j_w j <= 256 * 1024 * 1024 < 2 ^ 63) by lia.
  destruct (copy_run e f path path (bak (j_blk j)) (j_blk j) (j_dt j) (j_nmemb j) Nfile (j_t j) (j_d j) b0 (j_rows j) (256 * 1024 * 1024) fuel (fun k => assoc k (j_d j)) Hg)
    as (f' & E & _ & _ & K & t' & b' & D1 & D2 & D3 & D4); auto.
  { apply (bbase_name _ _ Hj). } { eapply path_open; [exact W|apply prefix_app]. }
  { fold (j_base j) (j_bbase j). rewrite base_old, bbase_bak by auto. apply bak_old. }
  exists f'. fold (j_base j) in K, D1, D4. unfold repart_cmd. split; [exact E|]. pose proof (kept_below j f f' ltac:(auto) W K) as Kb.
  assert (Ho : only_below f f' j) by (intros x Hx _; apply Kb; exact Hx). split; [|exact Ho]. split; [eapply below_way; eauto|]. split; [exists t', b'; auto|].
  rewrite Kb by apply old_bak. pose proof (proj1 (hv_dir _ _ _ _ _ _ _ _ (fr_inv _ _ _ _ _ _ _ _ _ F))) as Hd. rewrite bbase_bak in Hd by auto. congruence.
Qed.
(* Rows that were never written: the copy fails, and what has the other name stays. *)
Lemma cmd_copy_fails j f : job_fit (exists r, 0 <= r < t_size (j_t j) /\ absent (j_t j) r) j -> 0 < j_N j -> jinv j (At 1) f ->
  exists f', repart_cmd e true f path Nfile (j_blk j) 1 fuel = Ret (1, f') /\ only_below f f' j /\ forall r, fs_get f' (j_bak j ++ r) = fs_get f (j_bak j ++ r).
Proof.
  intros Hj HN I1. pose proof (job_makeable _ j f Hj I1) as Hmk. pose proof (fit_names _ _ Hj) as Hnm. destruct I1 as (W & (b0 & F) & Hn). pose proof Hj as [].
  assert (X : 256 * 1024 * 1024 = 2 ^ 28) by reflexivity. assert (X2 : 2 ^ 28 < 2 ^ 63) by (vm_compute; reflexivity).
  assert (X3 : j_w j <= 256 * 1024 * 1024) by lia.
  destruct (copy_missing e f path path (bak (j_blk j)) (j_blk j) (j_dt j) (j_nmemb j) Nfile (j_t j) (j_d j) b0 (256 * 1024 * 1024) fuel) as [_ Y]; auto; try lia.
  { apply (bbase_name _ _ Hj). } { eapply path_open; [exact W|apply prefix_app]. }
  { fold (j_base j) (j_bbase j). rewrite base_old, bbase_bak by auto. apply bak_old. }
  destruct Y as (f' & E & K); [exact X3|exact jo_fuel0|exact jo_rows0|].
  exists f'. fold (j_base j) in K. unfold repart_cmd. split; [exact E|]. pose proof (kept_below j f f' ltac:(auto) W K) as Kb.
  split; [intros x Hx _; apply Kb; exact Hx|]. intros r. apply Kb. intros Z. apply prefix_cases in Z.
  destruct Z as [Z|Z]; [exact (old_bak _ Z)|exact (bak_old _ Z)].
Qed.
Lemma cmd_rm j f : job_ok j -> jinv j (At 2) f -> exists f', repart_cmd e true f path Nfile (j_blk j) 2 fuel = Ret (0, f') /\ jinv j (At 3) f' /\ only_below f f' j.
Proof.
  intros Hj (W & D & Hb). destruct (names_ok j ltac:(auto)) as [N1 N2]. destruct (rm_one f path (j_dir j) (bak (j_name j)) Hpath N2) as (rc & f' & E & _ & E0 & R). fold (j_bak j) in E0, R.
  apply E0 in Hb. subst rc. destruct (R eq_refl) as [R1 R2]. exists f'. unfold repart_cmd, bigfile_rm. cbn [fold_left]. unfold j_blk. rewrite bak_slashed, E. split; [reflexivity|].
  assert (Kb : forall x, ~ prefix_of (j_bak j) x -> fs_get f' x = fs_get f x) by (intros x Hx; apply R2; intros p [<-|[]]; exact Hx).
  assert (Ho : only_below f f' j) by (intros x _ Hx; apply Kb; exact Hx). split; [|exact Ho]. split; [eapply below_way; eauto|]. split.
  - eapply done_zone; [auto| |exact D]. intros x Hx. apply Kb. intros Y. destruct Hx as (r & ->). apply prefix_cases in Y. destruct Y as [Y|Y]; [exact (bak_old j Y)|exact (old_bak j Y)].
  - intros r. apply (R1 _ (j_bak j)); [left; reflexivity|apply prefix_app].
Qed.

(* ------------------------------------------------------- any schedule *)
Definition apart (j k : job) : Prop := forall p q, (p = j_old j \/ p = j_bak j) -> (q = j_old k \/ q = j_bak k) -> ~ prefix_of p q.
Definition spread (jobs : list job) : Prop := forall i k a b, i <> k -> nth_error jobs i = Some a -> nth_error jobs k = Some b -> apart a b.
Definition all_inv (jobs : list job) (sts : list stage) (f : fs) : Prop :=
  length sts = length jobs /\ forall k j st, nth_error jobs k = Some j -> nth_error sts k = Some st -> jinv j st f.
Lemma apart_zone j k x : apart j k -> apart k j -> prefix_of (j_old k) x \/ prefix_of (j_bak k) x \/ prefix_of x (resolve path ++ j_dir k) ->
  ~ prefix_of (j_old j) x /\ ~ prefix_of (j_bak j) x.
Proof.
  intros A B H. assert (Hp : forall p q, (p = j_old j \/ p = j_bak j) -> (q = j_old k \/ q = j_bak k) -> prefix_of q x -> ~ prefix_of p x).
  { intros p q Hp Hq (r & ->) X. apply prefix_cases in X. destruct X as [X|X]; [exact (A p q Hp Hq X)|exact (B q p Hq Hp X)]. }
  assert (Hw : forall p, (p = j_old j \/ p = j_bak j) -> prefix_of x (resolve path ++ j_dir k) -> ~ prefix_of p x).
  { intros p Hp' Hx X. apply (A p (j_old k) Hp' (or_introl eq_refl)). eapply prefix_trans; [exact X|]. eapply prefix_trans; [exact Hx|]. unfold j_old. rewrite app_assoc. apply prefix_app. }
  destruct H as [H|[H|H]]; split; eauto.
Qed.
Lemma update_nth {A} (l : list A) : forall i x k, nth_error (update l i x) k = if (k =? i)%nat && (i <? length l)%nat then Some x else nth_error l k.
Proof.
  induction l as [|y l IH]; intros [|i] x [|k]; cbn [update nth_error length]; try reflexivity.
  - cbn. destruct (k =? i)%nat; reflexivity.
  - rewrite IH. cbn [Nat.eqb]. change (S i <? S (length l))%nat with (i <? length l)%nat. reflexivity.
Qed.
Lemma update_length {A} (l : list A) : forall i x, length (update l i x) = length l.
Proof. induction l as [|y l IH]; intros [|i] x; cbn; auto. Qed.

Lemma stage_ok j st f : job_ok j -> jinv j st f -> exists st' f', stage_step e true path Nfile (j_blk j) fuel st f = Ret (st', f') /\ jinv j st' f' /\ only_below f f' j /\
  exists n, st = At n /\ st' = At (if (n <? 3)%nat then S n else n).
Proof.
  intros Hj I. destruct st as [n|]; [|destruct I as [_ []]]. unfold stage_step.
  destruct n as [|[|[|n]]].
  - destruct (cmd_rename _ j f Hj I) as (f' & E & I' & O & _). change (3 <=? 0)%nat with false. cbv iota. rewrite E. cbn [bind]. exists (At 1), f'. split; [reflexivity|]. split; [exact I'|]. split; [exact O|]. exists 0%nat. auto.
  - destruct (cmd_copy j f Hj I) as (f' & E & I' & O). change (3 <=? 1)%nat with false. cbv iota. rewrite E. cbn [bind]. exists (At 2), f'. split; [reflexivity|]. split; [exact I'|]. split; [exact O|]. exists 1%nat. auto.
  - destruct (cmd_rm j f Hj I) as (f' & E & I' & O). change (3 <=? 2)%nat with false. cbv iota. rewrite E. cbn [bind]. exists (At 3), f'. split; [reflexivity|]. split; [exact I'|]. split; [exact O|]. exists 2%nat. auto.
  - change (3 <=? S (S (S n)))%nat with true. cbv iota. exists (At (S (S (S n)))), f. split; [reflexivity|]. split; [exact I|]. split; [intros x _ _; reflexivity|]. exists (S (S (S n))). auto.
Qed.
Lemma run_ok jobs : Forall job_ok jobs -> spread jobs -> forall sched sts f, all_inv jobs sts f ->
  exists sts' f', repart_run e true path Nfile (map j_blk jobs) fuel sched sts f = Ret (sts', f') /\ all_inv jobs sts' f' /\
    (forall k j n, nth_error jobs k = Some j -> nth_error sts k = Some (At n) -> (n <= 3)%nat -> nth_error sts' k = Some (At (Nat.min 3 (n + count_occ Nat.eq_dec sched k)))) /\
    (forall x, (forall j, In j jobs -> ~ prefix_of (j_old j) x /\ ~ prefix_of (j_bak j) x) -> fs_get f' x = fs_get f x).
Proof.
  intros Hok Hsp. induction sched as [|k sched IH]; intros sts f I.
  - exists sts, f. split; [reflexivity|]. split; [exact I|]. split; [|auto]. intros k j n _ Hn Hn3. rewrite Hn. cbn [count_occ]. rewrite Nat.add_0_r, Nat.min_r by exact Hn3. reflexivity.
  - cbn [repart_run]. rewrite nth_error_map. destruct (nth_error jobs k) as [j|] eqn:Ej; cbn [option_map].
    + destruct (nth_error sts k) as [st|] eqn:Es.
      2:{ apply nth_error_None in Es. assert (k < length jobs)%nat by (apply nth_error_Some; congruence). destruct I as [L _]. lia. }
      assert (Hj : job_ok j) by (eapply Forall_forall; [exact Hok|eapply nth_error_In; exact Ej]).
      destruct I as [L I]. destruct (stage_ok j st f Hj (I k j st Ej Es)) as (st' & f' & E & I' & O & n & -> & ->). rewrite E. cbn [bind].
      assert (Hk : (k < length sts)%nat) by (apply nth_error_Some; congruence).
      destruct (IH (update sts k (At (if (n <? 3)%nat then S n else n))) f') as (sts' & f2 & E2 & I2 & C2 & F2).
      { split; [rewrite update_length; exact L|]. intros i a st Ha Hst. rewrite update_nth in Hst. replace (k <? length sts)%nat with true in Hst by (symmetry; apply Nat.ltb_lt; exact Hk). rewrite andb_true_r in Hst.
        destruct (Nat.eqb_spec i k) as [->|Hik].
        - injection Hst as <-. rewrite Ej in Ha. injection Ha as <-. exact I'.
        - eapply jinv_zone; [eapply ok_names, Forall_forall; [exact Hok|eapply nth_error_In; exact Ha]|apply (I i a st Ha Hst)|]. intros x Hx.
          destruct (apart_zone j a x) as [X1 X2]; [eapply Hsp; [|exact Ej|exact Ha]; congruence|eapply Hsp; [|exact Ha|exact Ej]; congruence|exact Hx|]. apply O; assumption. }
      exists sts', f2. split; [exact E2|]. split; [exact I2|]. split.
      * intros i a m Ha Hm Hm3. cbn [count_occ]. destruct (Nat.eq_dec k i) as [->|Hki].
        -- rewrite Es in Hm. injection Hm as ->. erewrite C2; [|exact Ha|rewrite update_nth, Nat.eqb_refl; replace (i <? length sts)%nat with true by (symmetry; apply Nat.ltb_lt; exact Hk); reflexivity|destruct (Nat.ltb_spec m 3); lia].
           do 2 f_equal. destruct (Nat.ltb_spec m 3); lia.
        -- erewrite C2; [reflexivity|exact Ha| |exact Hm3]. rewrite update_nth. replace (i =? k)%nat with false by (symmetry; apply Nat.eqb_neq; congruence). exact Hm.
      * intros x Hx. rewrite F2 by exact Hx. destruct (Hx j) as [X1 X2]; [eapply nth_error_In; exact Ej|]. apply O; assumption.
    + destruct (IH sts f I) as (sts' & f2 & E2 & I2 & C2 & F2). exists sts', f2. split; [exact E2|]. split; [exact I2|]. split; [|exact F2].
      intros i a m Ha Hm Hm3. cbn [count_occ]. destruct (Nat.eq_dec k i) as [->|Hki]; [congruence|]. eapply C2; eassumption.
Qed.

(* ------------------------------------------------------- making the blocks *)
Lemma jinv_kept j k f f' : job_names j -> job_names k -> apart j k -> apart k j -> kept (j_base k) f f' -> jinv j (At 0) f -> jinv j (At 0) f'.
Proof.
  intros Hj Hk A B [K1 K2] I. pose proof I as (W & _ & _). eapply jinv_zone; [exact Hj|exact I|]. intros x Hx.
  destruct (apart_zone k j x B A Hx) as [X1 X2]. assert (Ho : ~ own_file (j_base k) x).
  { intros X. destruct (in_block_app (j_base k) x (or_introl X)) as (c & ->). apply X1. rewrite base_old by exact Hk. apply prefix_app. }
  destruct (fs_get f x) as [n|] eqn:E; [apply K1; auto|]. destruct (fs_get f' x) as [n|] eqn:E'; [|reflexivity]. exfalso. destruct (K2 x n Ho E E') as [_ Hp]. rewrite base_old in Hp by exact Hk.
  destruct Hx as [Hx|[Hx|Hx]].
  - apply (A (j_old j) (j_old k)); auto. eapply prefix_trans; eauto.
  - apply (A (j_bak j) (j_old k)); auto. eapply prefix_trans; eauto.
  - rewrite (W x Hx) in E. discriminate.
Qed.
Lemma makeable_kept j k f f' d nmemb : job_names j -> job_names k -> apart j k -> apart k j -> kept (j_base k) f f' ->
  makeable e f path (j_blk j) d nmemb -> makeable e f' path (j_blk j) d nmemb.
Proof.
  intros Hj Hk A B [K1 K2] []. fold (j_base j) in *.
  assert (Hno : forall x, prefix_of (j_old j) x -> ~ own_file (j_base k) x /\ ~ prefix_of x (j_old k)).
  { intros x Hx. split; intros X.
    - destruct (in_block_app (j_base k) x (or_introl X)) as (c & ->). rewrite base_old in Hx by exact Hk. apply prefix_cases in Hx. destruct Hx as [Hx|Hx].
      + exact (A _ _ (or_introl eq_refl) (or_introl eq_refl) Hx).
      + exact (B _ _ (or_introl eq_refl) (or_introl eq_refl) Hx).
    - apply (A (j_old j) (j_old k)); auto. eapply prefix_trans; eauto. }
  assert (Hsame : forall x, prefix_of (j_old j) x -> fs_get f' x = fs_get f x).
  { intros x Hx. destruct (Hno x Hx) as [H1 H2]. destruct (fs_get f x) as [n|] eqn:E; [apply K1; auto|]. destruct (fs_get f' x) as [n|] eqn:E'; [|reflexivity].
    destruct (K2 x n H1 E E') as [_ Y]. rewrite base_old in Y by exact Hk. contradiction. }
  assert (Hway : forall p, prefix_of p (j_old j) -> way_free f p -> way_free f' p).
  { intros p Hp Hw q c Hq X. assert (Ho : ~ own_file (j_base k) q).
    { intros Y. destruct (in_block_app (j_base k) q (or_introl Y)) as (z & ->). rewrite base_old in Hq by exact Hk. apply (B (j_old k) (j_old j)); auto. eapply prefix_trans; [apply prefix_app|]. eapply prefix_trans; [exact Hq|exact Hp]. }
    destruct (fs_get f q) as [n|] eqn:E.
    - rewrite (K1 q n Ho E) in X. injection X as ->. exact (Hw q c Hq E).
    - destruct (K2 q _ Ho E X) as [Y _]. discriminate Y. }
  assert (Hin : forall p, in_block (j_base j) p -> prefix_of (j_old j) p). { intros p Hp. destruct (in_block_app (j_base j) p Hp) as (c & ->). rewrite base_old by exact Hj. apply prefix_app. }
  constructor; auto; fold (j_base j); auto.
  - apply Hway; [|exact mk_way]. unfold j_old. apply prefix_app.
  - destruct mk_free as [M1 M2]. split; [rewrite base_old in * by exact Hj; apply Hway; [apply prefix_refl|exact M1]|]. intros p Hp. rewrite Hsame by (apply Hin; left; exact Hp). auto.
  - rewrite Hsame by (apply Hin; right; reflexivity). exact mk_attr1.
Qed.
Lemma bak_kept j k f f' : job_names j -> job_names k -> apart j k -> apart k j -> kept (j_base k) f f' -> (forall r, fs_get f (j_bak j ++ r) = None) -> forall r, fs_get f' (j_bak j ++ r) = None.
Proof.
  intros Hj Hk A B [K1 K2] H r. destruct (fs_get f' (j_bak j ++ r)) as [n|] eqn:E'; [|reflexivity]. exfalso.
  assert (Ho : ~ own_file (j_base k) (j_bak j ++ r)).
  { intros X. destruct (in_block_app (j_base k) _ (or_introl X)) as (c & Y). rewrite base_old in Y by exact Hk. assert (Z : prefix_of (j_bak j) (j_old k ++ [c])) by (exists r; auto).
    apply prefix_cases in Z. destruct Z as [Z|Z]; [apply (A (j_bak j) (j_old k)); auto|apply (B (j_old k) (j_bak j)); auto]. }
  destruct (K2 _ n Ho (H r) E') as [_ Y]. rewrite base_old in Y by exact Hk. apply (A (j_bak j) (j_old k)); auto. eapply prefix_trans; [apply prefix_app|exact Y].
Qed.
End Jobs.

(* ------------------------------------------------------- what is seen of a closed block *)
Lemma rows_of_inv e f path blk dt nmemb t b rows : let base := path_join path blk in let w := itemsize (e_me e) dt * nmemb in
  block_name base -> header_type dt -> 0 < nmemb < 2 ^ 31 -> w <= e_chunk e -> w < 2 ^ 31 -> dt_ok (e_me e) dt ->
  hinv e base dt nmemb w t f b -> b_dirty b = false -> shows_all w t rows -> zlen rows * nmemb < 2 ^ 63 -> block_rows e f path blk dt nmemb rows.
Proof.
  intros base w Hbn Hty Hnm Hwc Hw31 Hdt I Hd Hsh Hsm.
  destruct (open_clean e base dt nmemb w t f b Hbn Hty ltac:(lia) I Hd) as (b' & E & I' & _). destruct (hinv_size _ _ _ _ _ _ _ _ I') as (Es & Ed & En & HL).
  destruct (read_all e base dt nmemb Hbn Hty Hnm Hwc Hw31 Hdt t f b' rows I' Hsh Hsm) as (m & Er & Hm).
  exists b', (chunk_array (e_me e) b' (zlen rows)), m. split; [exact E|]. split; [exact Ed|]. split; [exact En|]. split; [rewrite Es; symmetry; apply Hsh|].
  split; [exact Er|]. split; [exact Ed|]. split; [cbn [chunk_array a_dims]; rewrite En; reflexivity|]. exact Hm.
Qed.
Lemma attrs_of_fresh e f path blk dt nmemb t d b M : let base := path_join path blk in
  block_name base -> header_type dt -> 0 < nmemb < 2 ^ 31 -> fresh e base dt nmemb (2 ^ 61) t d f b -> (forall k, assoc k d = M k) -> block_attrs e f path blk M.
Proof.
  intros base Hbn Hty Hnm F HM.
  destruct (fresh_open e base dt nmemb Hbn Hty Hnm (2 ^ 61) t d f b (fr_inv _ _ _ _ _ _ _ _ _ F) (fr_clean _ _ _ _ _ _ _ _ _ F) ltac:(lia) (fr_file _ _ _ _ _ _ _ _ _ F)
    (fr_no1 _ _ _ _ _ _ _ _ _ F) (ok_sorted _ _ _ (fr_ok _ _ _ _ _ _ _ _ _ F)) (fr_sv _ _ _ _ _ _ _ _ _ F) (fr_le _ _ _ _ _ _ _ _ _ F) (fr_tot _ _ _ _ _ _ _ _ _ F)) as (b' & E & F' & _).
  destruct (fresh_attrs e base dt nmemb _ _ _ _ _ M F' HM) as (names & A). exists b', names. split; [exact E|exact A].
Qed.

(* ------------------------------------------------------- plans *)
Definition job_of (e : env) (p : plan) (t : table) (d : list entry) (rows : list bytes) : job :=
  mkJob (p_dir p) (p_name p) (dtype_normalize (e_me e) (p_type p)) (p_nmemb p) t d rows.
Lemma bak_self path j f f' : path <> [] -> job_names j -> kept (j_base path j) f f' -> (forall r, fs_get f (j_bak path j ++ r) = None) -> forall r, fs_get f' (j_bak path j ++ r) = None.
Proof.
  intros Hp Hj [K1 K2] H r. destruct (fs_get f' (j_bak path j ++ r)) as [n|] eqn:E'; [|reflexivity]. exfalso.
  assert (Ho : ~ own_file (j_base path j) (j_bak path j ++ r)).
  { intros X. destruct (in_block_app (j_base path j) _ (or_introl X)) as (c & Y). rewrite base_old in Y by assumption. assert (Z : prefix_of (j_bak path j) (j_old path j ++ [c])) by (exists r; auto).
    apply prefix_cases in Z. destruct Z as [Z|Z]; [exact (bak_old _ _ Z)|exact (old_bak _ _ Z)]. }
  destruct (K2 _ n Ho (H r) E') as [_ Y]. rewrite base_old in Y by assumption. apply (bak_old path j). eapply prefix_trans; [apply prefix_app|exact Y].
Qed.
Lemma separate_apart path ps i k p q e t d r t' d' r' : separate path ps -> i <> k -> nth_error ps i = Some p -> nth_error ps k = Some q -> apart path (job_of e p t d r) (job_of e q t' d' r').
Proof. intros S Hik Hp Hq x y Hx Hy. eapply S; [exact Hik|exact Hp|exact Hq|exact Hx|exact Hy]. Qed.

Lemma make_all_ok e path ps : forall f, g_clean e -> path <> [] -> Forall (plan_ok e f path) ps -> separate path ps -> (forall p r, In p ps -> fs_get f (p_place2 path p ++ r) = None) ->
  exists f1 ts, make_all e f path ps = Ret (Some f1) /\
    Forall2 (fun p tMd => holds_after e p (fst tMd) /\ (forall k, assoc k (snd tMd) = snd (fst tMd) k) /\ jinv e path (-1) (job_of e p (fst (fst tMd)) (snd tMd) []) (At 0) f1) ps ts /\
    (forall j, job_names j -> (forall p, In p ps -> apart path j (job_of e p (new_table []) [] []) /\ apart path (job_of e p (new_table []) [] []) j) -> jinv e path (-1) j (At 0) f -> jinv e path (-1) j (At 0) f1).
Proof.
  induction ps as [|p ps IH]; intros f Hg Hp Hok Hsep Hbk.
  - exists f, []. split; [reflexivity|]. split; [constructor|]. auto.
  - inversion_clear Hok. destruct H. destruct (live_kept e f path (p_blk p) (p_type p) (p_nmemb p) (p_sizes p) (p_rounds p) Hg po_make po_layout po_files po_rounds po_attrs)
      as (f1 & t & M & dd & b0 & E & L & F & A & O & K & W).
    set (j := job_of e p t dd []). assert (Hj : job_names j) by (split; assumption).
    assert (Hq : forall q, In q ps -> apart path (job_of e q (new_table []) [] []) j /\ apart path j (job_of e q (new_table []) [] []) /\ job_names (job_of e q (new_table []) [] [])).
    { intros q Hq. destruct (In_nth_error _ _ Hq) as (i & Hi). split; [|split].
      - eapply (separate_apart path (p :: ps) (S i) 0); [exact Hsep|discriminate|exact Hi|reflexivity].
      - eapply (separate_apart path (p :: ps) 0 (S i)); [exact Hsep|discriminate|reflexivity|exact Hi].
      - rewrite Forall_forall in H0. destruct (H0 q Hq). split; assumption. }
    destruct (IH f1 Hg Hp) as (f2 & ts & E2 & T2 & K2).
    { rewrite Forall_forall in H0 |- *. intros q Hin. destruct (Hq q Hin) as (Q1 & Q2 & Q3). destruct (H0 q Hin). constructor; auto.
      exact (makeable_kept e path Hp (job_of e q (new_table []) [] []) j f f1 _ _ Q3 Hj Q1 Q2 K po_make0). }
    { intros i k a b x y Hik Ha Hb. eapply (Hsep (S i) (S k)); [congruence|exact Ha|exact Hb]. }
    { intros q r Hin. destruct (Hq q Hin) as (Q1 & Q2 & Q3). apply (bak_kept path Hp (job_of e q (new_table []) [] []) j f f1 Q3 Hj Q1 Q2 K). intros r'. apply (Hbk q r'). right. exact Hin. }
    assert (I1 : jinv e path (-1) j (At 0) f1).
    { split; [|split].
      - intros q Hq'. apply W. fold (j_blk j) in W. change (path_join path (p_blk p)) with (j_base path j). rewrite base_old by assumption. eapply prefix_trans; [exact Hq'|]. unfold j_old. rewrite app_assoc. apply prefix_app.
      - exists b0. assert (F2 : fresh e (path_join path (p_blk p)) (dtype_normalize (e_me e) (p_type p)) (p_nmemb p) (2 ^ 61) t dd f1 b0) by (destruct F; constructor; auto; lia). exact F2.
      - apply (bak_self path j f f1 Hp Hj K). intros r. apply (Hbk p r). left. reflexivity. }
    exists f2, ((t, M, dd) :: ts). split; [cbn [make_all]; rewrite E; cbn [bind]; exact E2|]. split.
    + constructor; [|exact T2]. split; [exact L|]. split; [exact A|]. apply (K2 j Hj); [|exact I1]. intros q Hin. destruct (Hq q Hin) as (Q1 & Q2 & _). auto.
    + intros k Hk Hap I. apply (K2 k Hk); [intros q Hin; apply Hap; right; exact Hin|]. destruct (Hap p (or_introl eq_refl)) as [P1 P2].
      exact (jinv_kept e path (-1) Hp (proj2 (mk_path _ _ _ _ _ _ po_make)) k j f f1 Hk Hj P1 P2 K I).
Qed.

Lemma mid_rows e path Nfile j st f blk M : path <> [] -> (length path <= Z.to_nat 8192)%nat -> forall fuel, job_ok e path Nfile fuel j -> (forall k, assoc k (j_d j) = M k) -> jinv e path Nfile j st f ->
  (st = At 1 -> blk = bak (j_blk j)) -> (st <> At 1 -> blk = j_blk j) -> block_rows e f path blk (j_dt j) (j_nmemb j) (j_rows j) /\ block_attrs e f path blk M.
Proof.
  intros Hp Hl fuel Hj HM (W & I) H1 H2. pose proof Hj as []. assert (X31 : 2 ^ 28 < 2 ^ 31) by (vm_compute; reflexivity). assert (Hw31 : j_w e j < 2 ^ 31) by lia.
  assert (Hsz : zlen (j_rows j) * j_nmemb j < 2 ^ 63) by (rewrite (proj1 jo_rows0); exact jo_small0).
  assert (Hold : forall t b, fresh e (j_base path j) (j_dt j) (j_nmemb j) (2 ^ 61) t (j_d j) f b -> shows_all (j_w e j) t (j_rows j) -> blk = j_blk j ->
    block_rows e f path blk (j_dt j) (j_nmemb j) (j_rows j) /\ block_attrs e f path blk M).
  { intros t b F S ->. split; [|eapply attrs_of_fresh; eauto].
    eapply rows_of_inv; [exact jo_block0|exact jo_type0|exact jo_items0|exact jo_chunk0|exact Hw31|exact jo_dt0|exact (fr_inv _ _ _ _ _ _ _ _ _ F)|exact (fr_clean _ _ _ _ _ _ _ _ _ F)|exact S|exact Hsz]. }
  destruct st as [[|[|[|n]]]|]; [| | | |destruct I].
  - destruct I as [(b0 & F) _]. apply (Hold _ _ F jo_rows0). apply H2. discriminate.
  - destruct I as [(b0 & F) _]. rewrite (H1 eq_refl). split; [|eapply attrs_of_fresh; eauto; eapply bbase_name; eauto].
    eapply rows_of_inv; [eapply bbase_name; eauto|exact jo_type0|exact jo_items0|exact jo_chunk0|exact Hw31|exact jo_dt0|exact (fr_inv _ _ _ _ _ _ _ _ _ F)|exact (fr_clean _ _ _ _ _ _ _ _ _ F)|exact jo_rows0|exact Hsz].
  - destruct I as [(t & b & F & _ & S & _) _]. apply (Hold _ _ F S). apply H2. discriminate.
  - destruct I as [(t & b & F & _ & S & _) _]. apply (Hold _ _ F S). apply H2. discriminate.
Qed.
Lemma done_has e path Nfile fuel j f : path <> [] -> (length path <= Z.to_nat 8192)%nat -> job_ok e path Nfile fuel j -> way_made f (resolve path ++ j_dir j) -> done e path Nfile j f ->
  block_has e f path (j_blk j) (j_dt j) (j_nmemb j) (j_cs Nfile j) (j_rows j).
Proof.
  intros Hp Hl Hj W (t & b & F & S & R & C). pose proof Hj as []. assert (X31 : 2 ^ 28 < 2 ^ 31) by (vm_compute; reflexivity). assert (Hw31 : j_w e j < 2 ^ 31) by lia.
  rewrite <- S in *. eapply has_of_inv; [exact jo_block0|exact jo_type0|exact jo_items0|exact jo_chunk0|exact Hw31|exact jo_dt0|exact (fr_inv _ _ _ _ _ _ _ _ _ F)|exact (fr_clean _ _ _ _ _ _ _ _ _ F)| |exact R| |exact C].
  - eapply path_open; [exact Hp|exact Hl|exact W|apply prefix_app].
  - rewrite (proj1 jo_rows0). exact jo_small0.
Qed.
Lemma j_even e path Nfile fuel j f b : job_ok e path Nfile fuel j -> fresh e (j_base path j) (j_dt j) (j_nmemb j) (2 ^ 61) (j_t j) (j_d j) f b ->
  zlen (j_cs Nfile j) = j_N Nfile j /\ Forall (fun s => s = t_size (j_t j) / j_N Nfile j \/ s = t_size (j_t j) / j_N Nfile j + 1) (j_cs Nfile j).
Proof.
  intros Hj F. destruct (hinv_size _ _ _ _ _ _ _ _ (fr_inv _ _ _ _ _ _ _ _ _ F)) as (Es & _ & _ & HL).
  assert (Hts : 0 <= t_size (j_t j)) by (unfold t_size; apply zsum_nonneg; apply HL).
  destruct (copy_even (t_size (j_t j)) (j_N Nfile j) Hts ltac:(apply Hj) ltac:(apply Hj)) as (V1 & V2 & V3). split; [exact V1|exact V3].
Qed.
