(* Proofs about File of the Python package. *)
From Coq.Strings Require Import Byte String.
From Coq Require Import List ZArith Lia Bool ZifyBool ZifyNat.
From Verif Require Import Base BaseFacts Dtype Cast Array FS Fmt Attr Block File Split Spec AttrSpec OpenSpec HistSpec FileSpec Py PySpec PyAttr PyFile PyFileSpec
  DtypeFacts ArrayFacts SeekFacts ConvFacts WriteFacts ReadFacts IOFacts ReopenFacts OpenFacts HistFacts FSFacts FileFacts FrameFacts RecNewFacts ListFacts PyFacts PyNewFacts AttrFacts BaseFacts PyFile PyFileSpec.
Import ListNotations.
Open Scope Z_scope.
Local Open Scope out_scope.

(* ------------------------------------------------------------------ lists *)
Lemma ins_in x l y : In y (ins_name x l) <-> y = x \/ In y l.
Proof.
  induction l as [|z l IH]; cbn [ins_name In]; [intuition|]. destruct (strcmp x z); cbn [In]; rewrite ?IH; intuition.
Qed.
Lemma sort_in l y : In y (sort_names l) <-> In y l.
Proof. induction l as [|x l IH]; cbn [sort_names In]; [tauto|]. rewrite ins_in, IH. intuition. Qed.
Lemma ins_sorted x l : sorted_names l -> ~ In x l -> sorted_names (ins_name x l).
Proof.
  induction l as [|y l IH]; intros S N; [cbn; auto|]. cbn [ins_name]. destruct (strcmp x y) eqn:E.
  - apply strcmp_eq in E. subst. destruct N. left. reflexivity.
  - split; [exact E|exact S].
  - destruct S as [S1 S2]. assert (Sy : sorted_names (ins_name x l)) by (apply IH; [exact S2|intros X; apply N; right; exact X]).
    split; [|exact Sy]. apply strcmp_gt in E. destruct l as [|z l]; [exact E|]. cbn [ins_name]. destruct (strcmp x z); auto.
Qed.
Lemma sort_sorted l : NoDup l -> sorted_names (sort_names l).
Proof. induction 1; cbn [sort_names]; [exact I|]. apply ins_sorted; [assumption|]. rewrite sort_in. assumption. Qed.
Lemma set_file_F2 {A B} (P : A -> B -> Prop) ps vs i p v : Forall2 P ps vs -> (i < length vs)%nat -> P p v ->
  Forall2 P (firstn i ps ++ p :: skipn (S i) ps) (firstn i vs ++ v :: skipn (S i) vs).
Proof.
  intros H. revert i. induction H as [|a b ps vs H0 H IH]; intros [|i] Hi Hp; cbn [length] in Hi; try lia.
  - cbn. constructor; assumption.
  - cbn. constructor; [assumption|]. apply IH; [lia|assumption].
Qed.
Lemma F2_at {A B} (P : A -> B -> Prop) ps vs i : Forall2 P ps vs -> (i < length vs)%nat -> exists p v, nth_error ps i = Some p /\ nth_error vs i = Some v /\ P p v.
Proof.
  intros H. revert i. induction H as [|a b ps vs H0 H IH]; intros [|i] Hi; cbn [length] in Hi; try lia; [exists a, b; auto|]. apply IH. lia.
Qed.

(* ------------------------------------------------------------------ calls on one block *)
Lemma run_frames e base dt nmemb w : block_name base -> header_type dt -> nmemb < 2 ^ 31 -> w <= e_chunk e -> w < 2 ^ 31 ->
  forall os t f b, hinv e base dt nmemb w t f b -> history_ok (e_me e) dt nmemb (t_sizes t) os ->
  exists xs f' b' t', hrun e (f, b) os = Ret (xs, (f', b')) /\ hspecs (e_me e) dt nmemb t os xs t' /\ hinv e base dt nmemb w t' f' b' /\ frames base f f'.
Proof.
  intros Hb Ht Hn Hc Hw. induction os as [|o os IH]; intros t f b I H.
  - exists [], f, b, t. split; [reflexivity|]. split; [constructor|]. split; [exact I|apply frames_refl].
  - destruct H as [Ho Hos]. destruct (hist_step e base dt nmemb w Hb Ht Hn Hc Hw t f b o I Ho) as (x & f1 & b1 & t1 & E1 & S1 & I1 & Z1 & _).
    rewrite <- Z1 in Hos. destruct (IH t1 f1 b1 I1 Hos) as (xs & f2 & b2 & t2 & E2 & S2 & I2 & F2).
    exists (x :: xs), f2, b2, t2. cbn [hrun]. rewrite E1. cbn [bind]. rewrite E2. cbn [bind].
    split; [reflexivity|]. split; [econstructor; eauto|]. split; [exact I2|]. eapply frames_trans; [|exact F2].
    pose proof (hv_base _ _ _ _ _ _ _ _ I) as Eb. pose proof (wb_layout _ _ _ _ (hv_wb _ _ _ _ _ _ _ _ I)) as HL.
    assert (Cases : o = HReopen \/ o <> HReopen) by (destruct o; auto; right; discriminate).
    destruct Cases as [->|Hne].
    + cbn [hstep] in E1. apply bind_ret in E1. destruct E1 as ([rc g] & Ec & E1). apply bind_ret in E1. destruct E1 as (ob & Eo & E1).
      destruct ob; injection E1 as <- <- <-; rewrite <- Eb; eapply close_frames; exact Ec.
    + rewrite <- Eb. eapply hstep_frames; [|exact Hne|exact E1]. rewrite (hl_Nfile _ _ HL). apply zlen_nonneg.
Qed.

Lemma split_slash_no s : forall acc y, ~ In "/"%byte acc -> In y (split_slash acc s) -> ~ In "/"%byte y.
Proof.
  induction s as [|c s IH]; intros acc y Ha Hy; cbn [split_slash] in Hy.
  - destruct Hy as [<-|[]]. rewrite <- in_rev. exact Ha.
  - destruct (Byte.eqb c "/") eqn:E.
    + destruct Hy as [<-|Hy]; [rewrite <- in_rev; exact Ha|]. eapply (IH []); [cbn; tauto|exact Hy].
    + eapply IH; [|exact Hy]. intros [->|X]; [|exact (Ha X)]. rewrite byte_eqb_refl in E. discriminate E.
Qed.

Lemma open_dir f s : s <> [] -> (length s <= Z.to_nat 8192)%nat -> fs_get f (resolve s) = Some Dir -> big_file_open f s = Some s.
Proof. intros Hs Hl H. unfold big_file_open. rewrite H, strdup_id by exact Hl. destruct s; [contradiction|reflexivity]. Qed.

Section File.
Variables (e : env) (path0 : bytes).
Hypothesis Hp : path0 <> [].
Hypothesis Hpl : (length path0 <= Z.to_nat 8192)%nat.
Let R := resolve path0.
Notation base n := (path_join path0 n).
Notation wd c := (itemsize (e_me e) (c_dtype c) * c_nmemb c).

Lemma good_entries cs : good_name cs -> Forall entry_name cs.
Proof. intros (_ & H & _). eapply Forall_impl; [|exact H]. intros c Hc. apply Hc. Qed.
Lemma base_at cs : good_name cs -> resolve (base (slashed cs)) = R ++ cs.
Proof. intros G. apply resolve_slashed; [exact Hp|apply good_entries; exact G]. Qed.
Lemma slashed_inj cs ds : good_name cs -> good_name ds -> slashed cs = slashed ds -> cs = ds.
Proof. intros G1 G2 E. rewrite <- (slashed_comps cs), <- (slashed_comps ds) by (apply good_entries; assumption). rewrite E. reflexivity. Qed.
Lemma own_at cs q : good_name cs -> own_file (base (slashed cs)) q -> exists x, q = R ++ cs ++ [x] /\ plain x.
Proof.
  intros G [->|[->|(i & Hi & ->)]]; eexists; (split; [unfold header_path, attr2_path, data_path; rewrite resolve_join by auto using header_plain, attr2_plain, print_06X_plain; rewrite base_at by exact G; rewrite <- app_assoc; reflexivity|auto using header_plain, attr2_plain, print_06X_plain]).
Qed.
Lemma header_at cs : good_name cs -> header_path (base (slashed cs)) = R ++ cs ++ [lit "header"].
Proof. intros G. unfold header_path. rewrite resolve_join by apply header_plain. rewrite base_at, <- app_assoc by exact G. reflexivity. Qed.
Lemma attr1_at cs : good_name cs -> attr1_path (base (slashed cs)) = R ++ cs ++ [lit "attr"].
Proof. intros G. unfold attr1_path. rewrite resolve_join by apply attr_plain. rewrite base_at, <- app_assoc by exact G. reflexivity. Qed.
Lemma attr2_at cs : good_name cs -> attr2_path (base (slashed cs)) = R ++ cs ++ [lit "attr-v2"].
Proof. intros G. unfold attr2_path. rewrite resolve_join by apply attr2_plain. rewrite base_at, <- app_assoc by exact G. reflexivity. Qed.
Lemma entry_dec x : entry_name x \/ ~ entry_name x.
Proof.
  unfold entry_name. destruct (is_dot x); [right; intros [X _]; discriminate X|]. destruct (in_dec Byte.byte_eq_dec "/"%byte x); [right|left]; tauto.
Qed.
Lemma resolve_names p x : prefix_of (p ++ [x]) R -> entry_name x \/ p = [] /\ x = lit "/".
Proof.
  intros [r H]. unfold R, resolve in H. rewrite <- app_assoc in H. cbn [app] in H.
  assert (Hc : forall y, In y (filter (fun c => negb (is_dot c)) (split_slash [] path0)) -> entry_name y).
  { intros y Hy. apply filter_In in Hy. destruct Hy as [Hy Hd]. split; [destruct (is_dot y); [discriminate Hd|reflexivity]|]. eapply split_slash_no; [|exact Hy]. cbn. tauto. }
  set (F := filter _ _) in *. clearbody F. destruct path0 as [|c s]; [contradiction|]. destruct (Byte.eqb c "/").
  - destruct p as [|z p]; [right; cbn [app] in H; injection H as E _; auto|]. cbn [app] in H. injection H as _ H. left. apply Hc. rewrite H. apply in_or_app. right. left. reflexivity.
  - left. apply Hc. cbn [app] in H. rewrite H. apply in_or_app. right. left. reflexivity.
Qed.
Lemma prefix_R (a b : list bytes) : prefix_of (R ++ a) (R ++ b) -> prefix_of a b.
Proof. intros [r H]. rewrite <- app_assoc in H. apply app_inv_head in H. exists r. exact H. Qed.
Lemma prefix_snoc (a b : list bytes) x : prefix_of a (b ++ [x]) -> prefix_of a b \/ a = b ++ [x].
Proof.
  intros [r H]. destruct r as [|y r _] using rev_ind; [right; rewrite app_nil_r in H; auto|]. left. rewrite app_assoc in H. apply app_inj_tail in H. exists r. apply H.
Qed.
Lemma tree_dir f p q : tree f -> fs_get f (p ++ q) <> None -> q <> [] -> fs_get f p = Some Dir.
Proof.
  intros T H Hq. destruct q as [|c q]; [contradiction|]. replace (p ++ c :: q) with ((p ++ [c]) ++ q) in H by (rewrite <- app_assoc; reflexivity).
  apply (tree_up f T) in H. apply (T p c H).
Qed.

(* ------------------------------------------------------------------ the invariant *)
Record binv (f : fs) (n : bytes) (c : content) : Prop := {
  bi_kind : kind_ok e (base n) (c_dtype c) (c_nmemb c) (wd c);
  bi_closed : closed e (base n) (c_dtype c) (c_nmemb c) (wd c) (c_table c) f;
  bi_attr1 : fs_get f (attr1_path (base n)) = None
}.
Record dinv (d : dict) (f : fs) : Prop := {
  di_tree : tree f;
  di_made : way_made f R;
  di_names : forall n, d n <> None -> exists cs, n = slashed cs /\ good_name cs;
  di_apart : forall cs, good_name cs -> d (slashed cs) <> None -> apart d cs;
  di_header : forall ds, ds <> [] -> (has_header f (R ++ ds) <-> good_name ds /\ d (slashed ds) <> None);
  di_under : forall ds, ds <> [] -> fs_get f (R ++ ds) <> None -> exists bs, good_name bs /\ d (slashed bs) <> None /\ (prefix_of ds bs \/ prefix_of bs ds);
  di_block : forall n c, d n = Some c -> binv f n c
}.
Definition knows (p : pfile) (v : option dict) : Prop :=
  pf_path p = path0 /\ match pf_blocks p, v with
  | None, None => True
  | Some l, Some d => sorted_names l /\ forall n, In n l <-> d n <> None
  | _, _ => False
  end.
Definition finv (st : fstate) (f : fs) (ps : list pfile) : Prop := dinv (f_dict st) f /\ Forall2 knows ps (f_lists st).

(* Block cs changes, the directories on the way to it may be new. *)
Record change (cs : list bytes) (f f' : fs) : Prop := {
  ch_keep : forall q n, ~ own_file (base (slashed cs)) q -> fs_get f q = Some n -> fs_get f' q = Some n;
  ch_new : forall q n, ~ own_file (base (slashed cs)) q -> fs_get f q = None -> fs_get f' q = Some n -> n = Dir /\ prefix_of q (R ++ cs);
  ch_made : way_made f' (R ++ cs);
  ch_own : forall q, own_file (base (slashed cs)) q -> fs_get f q <> Some Dir
}.
Lemma not_own cs ds x : good_name cs -> ds <> cs -> ~ own_file (base (slashed cs)) (R ++ ds ++ [x]).
Proof. intros G N H. destruct (own_at cs _ G H) as (y & E & _). apply app_inv_head in E. apply app_inj_tail in E. destruct E. contradiction. Qed.
Lemma not_own_short cs ds : good_name cs -> prefix_of ds (R ++ cs) -> ~ own_file (base (slashed cs)) ds.
Proof.
  intros G [r H] O. destruct (own_at cs _ G O) as (y & E & _). subst ds. apply (f_equal (@length bytes)) in H. rewrite !app_length in H. cbn [length] in H. lia.
Qed.
Lemma put_same d n c : put d n c n = Some c.
Proof. unfold put. rewrite bytes_eqb_refl. reflexivity. Qed.
Lemma put_other d n c m : n <> m -> put d n c m = d m.
Proof. intros H. unfold put. apply BaseFacts.bytes_eqb_neq in H. rewrite H. reflexivity. Qed.
Lemma put_some d n c m : put d n c m <> None <-> m = n \/ d m <> None.
Proof.
  destruct (list_eq_dec Byte.byte_eq_dec n m) as [<-|N].
  - rewrite put_same. split; [auto|discriminate].
  - rewrite put_other by exact N. split; [auto|]. intros [X|X]; congruence.
Qed.

Lemma change_inv d f f' cs c : dinv d f -> good_name cs -> apart d cs -> change cs f f' -> binv f' (slashed cs) c -> dinv (put d (slashed cs) c) f'.
Proof.
  intros I G A [K N M O] B. pose proof (closed_dir _ _ _ _ _ _ _ (bi_closed _ _ _ B)) as D'.
  assert (Hin : forall ds, good_name ds -> put d (slashed cs) c (slashed ds) <> None <-> ds = cs \/ d (slashed ds) <> None).
  { intros ds Gd. rewrite put_some. split; intros [X|X]; auto; [left; apply slashed_inj; assumption|left; congruence]. }
  assert (Ap : forall ds, good_name ds -> d (slashed ds) <> None -> apart (put d (slashed cs) c) ds).
  { intros ds Gd Hd bs Gb Hb P. apply Hin in Hb; [|exact Gb]. destruct Hb as [->|Hb]; [|apply (di_apart _ _ I ds Gd Hd bs Gb Hb P)].
    symmetry. apply (A ds Gd Hd). tauto. }
  constructor.
  - intros p x Hx. destruct (fs_get f' (p ++ [x])) as [n|] eqn:E; [clear Hx|contradiction].
    destruct (fs_get f (p ++ [x])) as [n0|] eqn:E0.
    + destruct (di_tree _ _ I p x ltac:(congruence)) as [Dp Ex]. split; [|exact Ex]. apply K; [|exact Dp]. intros X. exact (O _ X Dp).
    + destruct (list_eq_dec (list_eq_dec Byte.byte_eq_dec) p (R ++ cs)) as [->|Np].
      * split; [apply M, prefix_refl|]. left. destruct (entry_dec x) as [Ex|Nx]; [exact Ex|]. exfalso. apply (not_longer (R ++ cs) x), (N _ n); [|exact E0|exact E].
        intros Ow. destruct (own_at cs _ G Ow) as (y & Ey & Py). rewrite app_assoc in Ey. apply app_inj_tail in Ey. destruct Ey as [_ ->]. exact (Nx Py).
      * assert (No : ~ own_file (base (slashed cs)) (p ++ [x])).
        { intros X. destruct (own_at cs _ G X) as (y & Ey & _). rewrite app_assoc in Ey. apply app_inj_tail in Ey. destruct Ey. contradiction. }
        destruct (N _ _ No E0 E) as [-> P]. split; [apply M; eapply prefix_drop; exact P|]. left.
        destruct (prefix_cases _ _ _ P) as [P1|[r Er]]; [apply (di_made _ _ I) in P1; congruence|].
        destruct r as [|z r _] using rev_ind; [rewrite app_nil_r in Er; rewrite Er in E0; rewrite (di_made _ _ I _ (prefix_refl _)) in E0; discriminate E0|].
        rewrite app_assoc in Er. apply app_inj_tail in Er. destruct Er as [-> ->]. rewrite <- app_assoc in P. apply prefix_R in P. destruct P as [s Es].
        pose proof (good_entries cs G) as Ge. rewrite Forall_forall in Ge. apply Ge. rewrite Es. apply in_or_app. left. apply in_or_app. right. left. reflexivity.
  - intros q Hq. apply M. eapply prefix_trans; [exact Hq|apply prefix_app].
  - intros n Hn. apply put_some in Hn. destruct Hn as [->|Hn]; [eauto|apply (di_names _ _ I); exact Hn].
  - intros ds Gd Hd. apply Hin in Hd; [|exact Gd]. destruct Hd as [->|Hd]; [|apply Ap; assumption].
    intros bs Gb Hb P. apply Hin in Hb; [|exact Gb]. destruct Hb as [->|Hb]; [reflexivity|apply (A bs Gb Hb P)].
  - intros ds Hds. split.
    + intros H. unfold has_header in H. rewrite <- app_assoc in H. destruct (list_eq_dec (list_eq_dec Byte.byte_eq_dec) ds cs) as [->|Ne]; [split; [exact G|rewrite put_same; discriminate]|].
      destruct (fs_get f' (R ++ ds ++ [lit "header"])) as [n|] eqn:E; [|contradiction]. pose proof (not_own cs ds (lit "header") G Ne) as No.
      destruct (fs_get f (R ++ ds ++ [lit "header"])) as [n0|] eqn:E0.
      * assert (HH : has_header f (R ++ ds)) by (unfold has_header; rewrite <- app_assoc; congruence). apply (di_header _ _ I) in HH; [|exact Hds]. destruct HH as [Gd Hd]. split; [exact Gd|]. apply put_some. auto.
      * destruct (N _ _ No E0 E) as [_ P]. apply prefix_R in P. destruct P as [s Es]. exfalso. apply G. rewrite Es. apply in_or_app. left. apply in_or_app. right. left. reflexivity.
    + intros [Gd Hd]. apply Hin in Hd; [|exact Gd]. unfold has_header. rewrite <- app_assoc. destruct (list_eq_dec (list_eq_dec Byte.byte_eq_dec) ds cs) as [->|Ne].
      * destruct (bi_closed _ _ _ B) as (b & Ib & Db). rewrite <- header_at by exact G. rewrite (hv_hdr _ _ _ _ _ _ _ _ Ib Db). discriminate.
      * destruct Hd as [Hd|Hd]; [contradiction|]. assert (HH : has_header f (R ++ ds)) by (apply (di_header _ _ I); auto). unfold has_header in HH. rewrite <- app_assoc in HH.
        destruct (fs_get f (R ++ ds ++ [lit "header"])) as [n|] eqn:E; [|contradiction]. rewrite (K _ n (not_own cs ds _ G Ne) E). discriminate.
  - intros ds Hds H. destruct (fs_get f (R ++ ds)) as [n|] eqn:E.
    + destruct (di_under _ _ I ds Hds ltac:(congruence)) as (bs & Gb & Hb & P). exists bs. split; [exact Gb|]. split; [apply put_some; auto|exact P].
    + exists cs. split; [exact G|]. split; [rewrite put_same; discriminate|]. destruct (fs_get f' (R ++ ds)) as [n|] eqn:E'; [|contradiction].
      destruct (list_eq_dec (list_eq_dec Byte.byte_eq_dec) (removelast ds) cs) as [Ec|Nc].
      * right. rewrite <- Ec. rewrite (app_removelast_last [] Hds) at 2. apply prefix_app.
      * left. apply prefix_R. apply (N _ n); [|exact E|exact E']. intros Ow. destruct (own_at cs _ G Ow) as (y & Ey & _). apply app_inv_head in Ey. subst ds.
        rewrite removelast_last in Nc. contradiction.
  - intros n c' Hn. destruct (list_eq_dec Byte.byte_eq_dec (slashed cs) n) as [<-|Ne]; [rewrite put_same in Hn; injection Hn as <-; exact B|].
    rewrite put_other in Hn by exact Ne. destruct (di_names _ _ I n ltac:(congruence)) as (bs & -> & Gb).
    assert (Nb : bs <> cs) by (intros ->; contradiction). assert (Hb : d (slashed bs) <> None) by congruence.
    destruct (di_block _ _ I _ _ Hn) as [Bk Bc Ba]. pose proof (closed_dir _ _ _ _ _ _ _ Bc) as Db.
    assert (Sx : forall x, fs_get f' (R ++ bs ++ [x]) = fs_get f (R ++ bs ++ [x])).
    { intros x. pose proof (not_own cs bs x G Nb) as No. destruct (fs_get f (R ++ bs ++ [x])) as [m|] eqn:E; [apply K; assumption|].
      destruct (fs_get f' (R ++ bs ++ [x])) as [m|] eqn:E'; [|reflexivity]. destruct (N _ _ No E E') as [_ P]. apply prefix_R in P. destruct P as [r Er].
      exfalso. apply Nb. apply (A bs Gb Hb). left. exists (x :: r). rewrite Er, <- app_assoc. reflexivity. }
    assert (S : same_block (base (slashed bs)) f f').
    { split.
      - rewrite base_at by exact Gb. destruct Db as (Dd & _). rewrite base_at in Dd by exact Gb. rewrite Dd. apply K; [|exact Dd]. intros X. exact (O _ X Dd).
      - intros q Hq. destruct (in_block_app _ _ Hq) as (x & ->). rewrite base_at by exact Gb. rewrite <- app_assoc. apply Sx. }
    constructor; [exact Bk|eapply closed_same; eauto|]. rewrite attr1_at in * by exact Gb. rewrite Sx. exact Ba.
Qed.

(* ------------------------------------------------------------------ listing *)
Lemma shown_iff d f cs : dinv d f -> (shown f R cs <-> good_name cs /\ d (slashed cs) <> None).
Proof.
  intros I. split.
  - intros []. apply (di_header _ _ I); assumption.
  - intros [G H]. constructor; [apply G|apply G|apply (di_header _ _ I); [apply G|auto]|].
    intros ds r -> Hd Hr X. apply (di_header _ _ I) in X; [|exact Hd]. destruct X as [Gd Hdd].
    pose proof (di_apart _ _ I _ G H ds Gd Hdd (or_introl (prefix_app _ _))) as E. apply (f_equal (@length bytes)) in E. rewrite app_length in E.
    destruct r; [contradiction|]. cbn [length] in E. lia.
Qed.
Lemma listing d f : dinv d f -> exists l, py_list_blocks f path0 = Ret l /\ sorted_names l /\ forall n, In n l <-> d n <> None.
Proof.
  intros I. destruct (list_spec f path0 (di_tree _ _ I) Hp) as (l & E & ND & H).
  { intros cs Hs. apply (shown_iff d) in Hs; [|exact I]. destruct Hs as [G Hd]. destruct (d (slashed cs)) as [c|] eqn:Ed; [|contradiction].
    destruct (bi_kind _ _ _ (di_block _ _ I _ _ Ed)) as [Bn _ _ _ _]. destruct Bn as (_ & Bl & _). pose proof (join_len path0 (slashed cs)). lia. }
  exists (sort_names l). unfold py_list_blocks. rewrite E. split; [reflexivity|]. split; [apply sort_sorted; exact ND|].
  intros n. rewrite sort_in, H. split.
  - intros (cs & Hs & ->). apply (shown_iff d) in Hs; [|exact I]. apply Hs.
  - intros Hn. destruct (di_names _ _ I n Hn) as (cs & -> & G). exists cs. split; [|reflexivity]. apply (shown_iff d); auto.
Qed.
Lemma blocks_list st f p v : dinv (f_dict st) f -> knows p v -> exists l p', py_blocks f p = Ret (l, p') /\ pf_path p' = path0 /\ pf_blocks p' = Some l /\
  sorted_names l /\ forall n, In n l <-> (match v with Some d => d | None => f_dict st end) n <> None.
Proof.
  intros I [Ep H]. unfold py_blocks. destruct (pf_blocks p) as [l|] eqn:El, v as [d|]; try contradiction.
  - exists l, p. split; [reflexivity|]. split; [exact Ep|]. split; [exact El|exact H].
  - rewrite Ep. destruct (listing _ _ I) as (l & E & S & Hl). rewrite E. exists l, (mkFile path0 (Some l)). cbn [bind]. auto.
Qed.

(* ------------------------------------------------------------------ creating *)
Lemma room d f cs : dinv d f -> good_name cs -> apart d cs -> block_name (base (slashed cs)) ->
  creatable f (base (slashed cs)) /\ fs_get f (attr1_path (base (slashed cs))) = None.
Proof.
  intros I G A Bn. assert (Hx : forall x, fs_get f (R ++ cs ++ [x]) <> None -> d (slashed cs) <> None).
  { intros x H. destruct (di_under _ _ I (cs ++ [x]) ltac:(destruct cs; discriminate) H) as (bs & Gb & Hb & P).
    assert (E : bs = cs); [|subst bs; exact Hb]. apply (A bs Gb Hb). destruct P as [P|P]; [right; eapply prefix_drop; exact P|].
    apply prefix_snoc in P. destruct P as [P| ->]; [left; exact P|right; apply prefix_app]. }
  split; [split|].
  - rewrite base_at by exact G. intros q c Hq Hc. destruct (prefix_cases _ _ _ Hq) as [P|[r ->]]; [apply (di_made _ _ I) in P; congruence|].
    destruct r as [|y r]; [rewrite app_nil_r in Hc; rewrite (di_made _ _ I _ (prefix_refl _)) in Hc; discriminate Hc|].
    apply prefix_R in Hq. destruct (di_under _ _ I (y :: r) ltac:(discriminate) ltac:(congruence)) as (bs & Gb & Hb & P).
    assert (Db : fs_get f (R ++ bs) = Some Dir).
    { destruct (d (slashed bs)) as [k|] eqn:Eb; [|contradiction]. destruct (closed_dir _ _ _ _ _ _ _ (bi_closed _ _ _ (di_block _ _ I _ _ Eb))) as (D & _). rewrite base_at in D by exact Gb. exact D. }
    destruct P as [[s ->]|P].
    + destruct s as [|z s]; [rewrite app_nil_r in Db; congruence|]. rewrite app_assoc in Db.
      rewrite (tree_dir f (R ++ y :: r) (z :: s) (di_tree _ _ I) ltac:(congruence) ltac:(discriminate)) in Hc. discriminate Hc.
    + assert (E : bs = cs) by (apply (A bs Gb Hb); left; eapply prefix_trans; eauto). subst bs. destruct P as [s Es], Hq as [s' Es'].
      rewrite Es in Es'. apply (f_equal (@length bytes)) in Es'. rewrite !app_length in Es'. destruct s; [rewrite app_nil_r in Es; rewrite Es in Hc; congruence|cbn [length] in Es'; lia].
  - intros q Hq Hd. destruct (own_at cs _ G Hq) as (x & -> & _). assert (Hin : d (slashed cs) <> None) by (apply (Hx x); congruence).
    destruct (d (slashed cs)) as [k|] eqn:Eb; [|contradiction]. destruct (closed_dir _ _ _ _ _ _ _ (bi_closed _ _ _ (di_block _ _ I _ _ Eb))) as (_ & D1 & D2 & D3).
    destruct Hq as [Hq|[Hq|(i & Hi & Hq)]]; rewrite Hq in Hd; [apply D1|apply D2|apply (D3 i Hi)]; exact Hd.
  - rewrite attr1_at by exact G. destruct (fs_get f (R ++ cs ++ [lit "attr"])) as [n|] eqn:E; [|reflexivity].
    assert (Hin : d (slashed cs) <> None) by (apply (Hx (lit "attr")); congruence). destruct (d (slashed cs)) as [k|] eqn:Eb; [|contradiction].
    pose proof (bi_attr1 _ _ _ (di_block _ _ I _ _ Eb)) as X. rewrite attr1_at in X by exact G. congruence.
Qed.
Lemma absent d f cs : dinv d f -> good_name cs -> d (slashed cs) = None -> apart d cs -> block_name (base (slashed cs)) -> big_file_open_block e f path0 (slashed cs) = Ret None.
Proof.
  intros I G Hn A Bn. unfold big_file_open_block. rewrite open_split by exact Bn.
  assert (Hx : forall x, fs_get f (R ++ cs ++ [x]) = None).
  { intros x. destruct (fs_get f (R ++ cs ++ [x])) as [n|] eqn:H; [|reflexivity]. exfalso.
    destruct (di_under _ _ I (cs ++ [x]) ltac:(destruct cs; discriminate) ltac:(congruence)) as (bs & Gb & Hb & P).
    assert (E : bs = cs); [|congruence]. apply (A bs Gb Hb). destruct P as [P|P]; [right; eapply prefix_drop; exact P|].
    apply prefix_snoc in P. destruct P as [P| ->]; [left; exact P|right; apply prefix_app]. }
  unfold open_attrs, file_contents, fopen_r. rewrite header_at, attr1_at, attr2_at by exact G. rewrite !Hx. reflexivity.
Qed.
Lemma make_all f nm d nmemb sizes : let base := path_join path0 nm in let dt := dtype_normalize (e_me e) d in
  block_name base -> layout_ok sizes -> zlen sizes <= 2 ^ 24 -> way_made f R -> creatable f base -> fs_get f (attr1_path base) = None ->
  0 < nmemb -> dt_ok (e_me e) dt ->
  exists f' b, big_file_create_block e f path0 nm (Some d) nmemb (zlen sizes) sizes = Ret (f', Some b) /\
    hinv e base dt nmemb (itemsize (e_me e) dt * nmemb) (new_table sizes) f' b /\ b_dirty b = false /\ as_dirty (b_attrset b) = false /\ way_made f' (resolve base) /\
    (forall q n, ~ own_file base q -> fs_get f q = Some n -> fs_get f' q = Some n) /\
    (forall q n, ~ own_file base q -> fs_get f q = None -> fs_get f' q = Some n -> n = Dir /\ prefix_of q (resolve base)).
Proof.
  intros base dt HB Hlay HN Hmade HC Ha1 Hnm Hdt.
  destruct (make_block e f path0 nm d nmemb sizes HB Hlay HN Hmade HC Ha1 Hnm Hdt) as (f1 & b & E & I & _ & K & N).
  destruct (create_block_spec e f path0 nm d nmemb sizes HB Hlay Hmade HC) as (f2 & b2 & E2 & M & _).
  rewrite E in E2. injection E2 as <- <-. exists f1, b. split; [exact E|]. split; [exact I|].
  assert (D : b_dirty b = false).
  { pose proof HC as [W B]. pose proof HB as (B1 & B2 & B3). pose proof (join_len path0 nm) as Hjl. fold base in Hjl.
    assert (Hne : base <> []) by (intros X; rewrite X in B1; discriminate B1).
    destruct (mksubdir_succeeds f path0 nm) as (g & E1 & M1); [lia|exact Hne|exact Hmade|exact W|].
    destruct (mksubdir_new f path0 nm 0 g ltac:(lia) E1) as [N1 _]. fold base in M1, N1.
    assert (Hnew : forall p, own_file base p -> fs_get g p <> Some Dir).
    { intros p Hq X. destruct (in_block_app base p (or_introl Hq)) as (c & Ep). destruct (fs_get f p) as [n|] eqn:En.
      - rewrite (proj1 N1 _ _ En) in X. injection X as ->. exact (B p Hq En).
      - destruct (proj2 N1 _ _ En X) as [_ Y]. rewrite Ep in Y. exact (not_longer _ _ Y). }
    assert (D1 : block_dir g base).
    { split; [apply M1, prefix_refl|]. split; [apply Hnew; left; auto|]. split; [apply Hnew; right; left; auto|].
      intros i Hi. apply Hnew. right. right. eauto. }
    destruct (create_spec e g base d nmemb sizes HB D1 Hlay) as (g2 & b2 & E2 & _ & _ & _ & _ & _ & Hd & _).
    unfold big_file_create_block in E. rewrite E1 in E. change (0 =? 0) with true in E. cbv iota in E. fold base in E. rewrite E2 in E. injection E as _ <-. exact Hd. }
  split; [exact D|]. split; [apply I|]. split; [exact M|]. split; [exact K|exact N].
Qed.

(* ------------------------------------------------------------------ steps *)
Lemma listed_at st i v : nth_error (f_lists st) i = Some v -> listed st i = match v with Some d => d | None => f_dict st end.
Proof. intros H. unfold listed. rewrite H. destruct v; reflexivity. Qed.
Lemma existsb_in n l : existsb (bytes_eqb n) l = true <-> In n l.
Proof.
  rewrite existsb_exists. split; [intros (x & Hx & E); apply BaseFacts.bytes_eqb_eq in E; subst; exact Hx|]. intros H. exists n. split; [exact H|apply bytes_eqb_refl].
Qed.
Lemma opens d f : dinv d f -> big_file_open f path0 = Some path0.
Proof.
  intros I. apply open_dir; [exact Hp|exact Hpl|]. apply (di_made _ _ I _ (prefix_refl _)).
Qed.
Lemma own_below cs q : good_name cs -> own_file (base (slashed cs)) q -> prefix_of R q.
Proof. intros G H. destruct (own_at cs _ G H) as (x & -> & _). apply prefix_app. Qed.
Lemma change_outside d f f' cs : dinv d f -> good_name cs -> change cs f f' -> elsewhere_same f f' R.
Proof.
  intros I G [K N M O] q Hq. assert (No : ~ own_file (base (slashed cs)) q) by (intros X; apply Hq; eapply own_below; eauto).
  destruct (fs_get f q) as [n|] eqn:E; [apply K; assumption|]. destruct (fs_get f' q) as [n|] eqn:E'; [|reflexivity].
  destruct (N _ _ No E E') as [_ P]. destruct (prefix_cases _ _ _ P) as [P1|P1]; [apply (di_made _ _ I) in P1; congruence|contradiction].
Qed.
Lemma same_refl f p : elsewhere_same f f p.
Proof. intros q _. reflexivity. Qed.
Lemma fstep_ok st f ps op : finv st f ps -> fop_ok e path0 st op ->
  exists x f' ps' st', fstep e path0 (f, ps) op = Ret (x, (f', ps')) /\ fspec (e_me e) st op x st' /\ finv st' f' ps' /\ elsewhere_same f f' R.
Proof.
  intros [I L] H. destruct op as [|i n d items size N|i|i n|i n os|i]; cbn [fop_ok] in H.
  - exists FDone, f, (ps ++ [mkFile path0 None]), (mkF (f_dict st) (f_lists st ++ [None])). cbn [fstep]. unfold py_file_open. rewrite (opens _ _ I).
    split; [reflexivity|]. split; [constructor|]. split; [|apply same_refl]. split; [exact I|]. apply Forall2_app; [exact L|]. constructor; [split; cbn; auto|constructor].
  - destruct H as (Hi & (cs & -> & G & A) & Bn & Ht & Hdt & Hit & Hwc & Hw31 & HN & Hs & HsN & H0).
    destruct (F2_at _ _ _ _ L Hi) as (p & v & Ep & Ev & [Pp Pv]).
    destruct (np_layout size N ltac:(lia) ltac:(lia) H0 HsN ltac:(lia) ltac:(lia)) as (Lay & Ln & Ls).
    destruct (room _ _ _ I G A Bn) as [Cr Ca].
    destruct (make_all f (slashed cs) d items (np_split size N) Bn Lay ltac:(lia) (di_made _ _ I) Cr Ca ltac:(lia) Hdt) as (f1 & b & E & Ib & Db & Das & M & K & Nw).
    set (dt := dtype_normalize (e_me e) d) in *. set (c := mkContent dt items (new_table (np_split size N))).
    set (d' := put (f_dict st) (slashed cs) c).
    rewrite base_at in M, Nw by exact G. assert (Ch : change cs f f1) by (constructor; [exact K|exact Nw|exact M|apply Cr]).
    assert (I' : dinv d' f1).
    { apply (change_inv (f_dict st) f); [exact I|exact G|exact A|exact Ch|].
      constructor; [constructor; cbn [c c_dtype c_nmemb]; try assumption; lia|exists b; split; [exact Ib|exact Db]|].
      destruct (fs_get f1 (attr1_path (base (slashed cs)))) as [n|] eqn:En; [|reflexivity].
      destruct (Nw (attr1_path (base (slashed cs))) n) as [_ P]; [|exact Ca|exact En|rewrite attr1_at, app_assoc in P by exact G; destruct (not_longer _ _ P)].
      intros [X|[X|(j & Hj & X)]]; [exact (header_not_attr1 _ (eq_sym X))|exact (attr1_not_attr2 _ X)|exact (data_not_attr1 _ _ Hj (eq_sym X))]. }
    destruct (listing _ _ I') as (l & El & Sl & Hl).
    exists FDone, f1, (set_file ps i (mkFile path0 (Some l))), (mkF d' (set_list (f_lists st) i d')). cbn [fstep]. rewrite Ep, Pp.
    assert (Ec : py_create e f path0 (slashed cs) d items size N = Ret (f1, PyRet b)).
    { unfold py_create. replace (N <? 0) with false by lia. replace ((N =? 0) && negb (size =? 0)) with false by lia. rewrite Ln in E. rewrite E. reflexivity. }
    rewrite Ec. cbn [bind]. rewrite El. cbn [bind]. unfold big_block_close. rewrite clean_flush by assumption. cbn [bind].
    split; [reflexivity|]. split; [apply (fs_create (e_me e) st i (slashed cs) d items size N (np_split size N)); assumption|].
    split; [|eapply change_outside; eauto]. split; [exact I'|]. apply set_file_F2; [exact L|exact Hi|]. split; [reflexivity|cbn; auto].
  - destruct (F2_at _ _ _ _ L H) as (p & v & Ep & Ev & Pv). destruct (blocks_list st f p v I Pv) as (l & p' & E & P1 & P2 & P3 & P4).
    exists (FNames l), f, (set_file ps i p'), (mkF (f_dict st) (set_list (f_lists st) i (listed st i))). cbn [fstep]. rewrite Ep, E. cbn [bind].
    rewrite (listed_at st i v Ev). split; [reflexivity|]. split; [rewrite <- (listed_at st i v Ev) in *; constructor; assumption|]. split; [|apply same_refl]. split; [exact I|].
    apply set_file_F2; [exact L|exact H|]. split; [exact P1|]. rewrite P2. auto.
  - destruct (F2_at _ _ _ _ L H) as (p & v & Ep & Ev & Pv). destruct (blocks_list st f p v I Pv) as (l & p' & E & P1 & P2 & P3 & P4).
    exists (FBool (existsb (bytes_eqb n) l)), f, (set_file ps i p'), (mkF (f_dict st) (set_list (f_lists st) i (listed st i))). cbn [fstep]. rewrite Ep, E. cbn [bind].
    split; [reflexivity|]. rewrite <- (listed_at st i v Ev) in *. split; [|split; [split; [exact I|]|apply same_refl]].
    + replace (existsb (bytes_eqb n) l) with (match listed st i n with Some _ => true | None => false end); [constructor|].
      specialize (P4 n). destruct (listed st i n); symmetry; [apply existsb_in, P4; discriminate|]. destruct (existsb (bytes_eqb n) l) eqn:X; [|reflexivity]. apply existsb_in, P4 in X. contradiction.
    + apply set_file_F2; [exact L|exact H|]. split; [exact P1|]. rewrite P2. auto.
  - destruct H as [Hi H]. destruct (F2_at _ _ _ _ L Hi) as (p & v & Ep & Ev & [Pp Pv]). cbn [fstep]. rewrite Ep, Pp. destruct (f_dict st n) as [c|] eqn:Ed.
    + destruct (di_names _ _ I n ltac:(congruence)) as (cs & -> & G). assert (A : apart (f_dict st) cs) by (apply (di_apart _ _ I); [exact G|congruence]).
      destruct (di_block _ _ I _ _ Ed) as [Bk Bc Ba]. pose proof Bk as [K1 K2 K3 K4 K5]. destruct (closed_open _ _ _ _ _ _ _ Bk Bc) as (b & Eo & Ib).
      destruct (run_frames e _ _ _ _ K1 K2 K3 K4 K5 os _ _ _ Ib H) as (xs & f1 & b1 & t1 & Er & Sr & I1 & F1).
      destruct (close_closed _ _ _ _ _ _ _ _ I1) as (f2 & Ec & C2). pose proof (close_frames _ _ _ _ _ Ec) as F2. rewrite (hv_base _ _ _ _ _ _ _ _ I1) in F2.
      pose proof (frames_trans _ _ _ _ F1 F2) as F. unfold big_file_open_block. rewrite Eo. cbn [bind]. rewrite Er. cbn [bind]. rewrite Ec. cbn [bind].
      exists (FRows xs), f2, ps, (mkF (put (f_dict st) (slashed cs) (mkContent (c_dtype c) (c_nmemb c) t1)) (f_lists st)).
      split; [reflexivity|]. split; [apply fs_use; assumption|].
      assert (Na : ~ own_file (base (slashed cs)) (attr1_path (base (slashed cs)))).
      { intros [X|[X|(j & Hj & X)]]; [exact (header_not_attr1 _ (eq_sym X))|exact (attr1_not_attr2 _ X)|exact (data_not_attr1 _ _ Hj (eq_sym X))]. }
      assert (Ch : change cs f f2).
      { destruct (closed_dir _ _ _ _ _ _ _ Bc) as (D0 & D1 & D2 & D3). constructor.
      * intros q m Hq Hm. rewrite F by exact Hq. exact Hm.
      * intros q m Hq Hm Hm'. rewrite F in Hm' by exact Hq. congruence.
      * intros q Hq. rewrite F by (apply not_own_short; assumption). rewrite base_at in D0 by exact G. destruct Hq as [r Er']. rewrite Er' in D0. destruct r as [|y r]; [rewrite app_nil_r in D0; exact D0|].
        apply (tree_dir f q (y :: r) (di_tree _ _ I)); [congruence|discriminate].
      * intros q [->|[->|(j & Hj & ->)]]; auto. }
      split; [|eapply change_outside; eauto]. split; [|exact L]. cbn [f_dict].
      apply (change_inv (f_dict st) f); [exact I|exact G|exact A|exact Ch|constructor; [exact Bk|exact C2|rewrite F by exact Na; exact Ba]].
    + destruct H as [(cs & -> & G & A) Bn]. rewrite (absent _ _ _ I G Ed A Bn). cbn [bind]. exists (FRaised BigError), f, ps, st.
      split; [reflexivity|]. split; [constructor; exact Ed|]. split; [split; [exact I|exact L]|apply same_refl].
  - destruct (F2_at _ _ _ _ L H) as (p & v & Ep & Ev & Pv). destruct (blocks_list st f p v I Pv) as (l & p' & E & P1 & P2 & P3 & P4).
    exists FDone, f, (set_file ps i p' ++ [mkFile path0 (Some l)]), (mkF (f_dict st) (set_list (f_lists st) i (listed st i) ++ [Some (listed st i)])).
    cbn [fstep]. rewrite Ep. unfold py_file_pickle. rewrite E. cbn [bind]. rewrite (proj1 Pv), (opens _ _ I).
    split; [reflexivity|]. split; [constructor|]. rewrite <- (listed_at st i v Ev) in *. split; [|apply same_refl]. split; [exact I|]. apply Forall2_app.
    + apply set_file_F2; [exact L|exact H|]. split; [exact P1|]. rewrite P2. auto.
    + constructor; [split; cbn; auto|constructor].
Qed.
Lemma frun_ok os : forall st f ps, finv st f ps -> fops_ok e path0 st os ->
  exists xs f' ps' st', frun e path0 (f, ps) os = Ret (xs, (f', ps')) /\ fspecs (e_me e) st os xs st' /\ finv st' f' ps' /\ elsewhere_same f f' R.
Proof.
  induction os as [|o os IH]; intros st f ps I H.
  - exists [], f, ps, st. split; [reflexivity|]. split; [constructor|]. split; [exact I|apply same_refl].
  - destruct H as [Ho Hos]. destruct (fstep_ok _ _ _ _ I Ho) as (x & f1 & ps1 & st1 & E1 & S1 & I1 & O1).
    destruct (IH st1 f1 ps1 I1 (Hos x st1 S1)) as (xs & f2 & ps2 & st2 & E2 & S2 & I2 & O2). exists (x :: xs), f2, ps2, st2. cbn [frun]. rewrite E1. cbn [bind]. rewrite E2.
    cbn [bind]. split; [reflexivity|]. split; [econstructor; eauto|]. split; [exact I2|].
    intros q Hq. rewrite O2, O1 by exact Hq. reflexivity.
Qed.

(* ------------------------------------------------------------------ a new file *)
Lemma start_ok f : tree f -> fs_get f R = None -> way_free f R ->
  exists f', py_file_new f path0 = (f', Some (mkFile path0 None)) /\ finv fstart f' [mkFile path0 None] /\ only_new_dirs f f' R.
Proof.
  intros T Hn W. destruct (create_file_spec f path0 Hpl Hp W) as (f' & E & M & [N1 N2] & _ & _). fold R in M, N2. exists f'. unfold py_file_new. rewrite E. split; [reflexivity|].
  assert (Hbelow : forall r, r <> [] -> fs_get f' (R ++ r) = None).
  { intros r Hr. destruct (fs_get f' (R ++ r)) as [n|] eqn:En; [|reflexivity]. destruct (fs_get f (R ++ r)) as [m|] eqn:Em.
    - rewrite (tree_dir f R r T ltac:(congruence) Hr) in Hn. discriminate Hn.
    - destruct (N2 _ _ Em En) as [_ [s Es]]. apply (f_equal (@length bytes)) in Es. rewrite !app_length in Es. destruct r; [contradiction|cbn [length] in Es; lia]. }
  split; [|split; assumption]. split; [|constructor; [split; cbn; auto|constructor]]. constructor.
  - intros p x Hx. destruct (fs_get f (p ++ [x])) as [n|] eqn:Ex.
    + destruct (T p x ltac:(congruence)) as [Dp En]. split; [apply N1; exact Dp|exact En].
    + destruct (fs_get f' (p ++ [x])) as [n|] eqn:Ex'; [|contradiction]. destruct (N2 _ _ Ex Ex') as [-> P]. split; [apply M; eapply prefix_drop; exact P|].
      apply resolve_names; exact P.
  - exact M.
  - intros n Hx. contradiction.
  - intros cs _ Hx. contradiction.
  - intros ds Hds. unfold has_header. rewrite <- app_assoc, Hbelow by (destruct ds; discriminate). split; [contradiction|]. intros [_ X]. contradiction.
  - intros ds Hds X. rewrite Hbelow in X by exact Hds. contradiction.
  - intros n c X. discriminate X.
Qed.
End File.
