(* Proofs about the collective part of the Python layer. *)
From Coq.Strings Require Import Byte String.
From Coq Require Import List ZArith Lia Bool ZifyBool ZifyNat Relations.
From Verif Require Import Base BaseFacts Dtype Cast Array FS Fmt Attr Block File Split Pack Spec AttrSpec OpenSpec PackSpec HistSpec FileSpec Py PySpec
  DtypeFacts ArrayFacts SeekFacts FSFacts ConvFacts WriteFacts ReadFacts IOFacts OpenFacts AttrFacts PackFacts FrameFacts Par MpiSpec ParFacts SyncFacts VecFacts CollFacts Mpi
  SegFacts StepFacts TableFacts HistFacts AggFacts LoopFacts MpiFacts LeadFacts AgreeFacts HandleFacts CHistSpec CHistFacts MiscFacts FileFacts RecNewFacts PyFacts PyNewFacts MpiPy.
Import ListNotations.
Open Scope Z_scope.
Ltac Zify.zify_post_hook ::= Z.div_mod_to_equations.

(* ------------------------------------------------------------ programs *)
(* rank after rank *)
Lemma does_each {B} N (r0 : nat -> B) (p : nat -> M B) (Inv : nat -> list (nat * act) -> (nat -> B) -> fs -> Prop) f :
  (forall k l r r' g, (forall i, (i < k)%nat -> r i = r' i) -> Inv k l r g -> Inv k l r' g) ->
  Inv 0%nat [] r0 f ->
  (forall k l r g, (k < N)%nat -> Inv k l r g -> does N (Nat.eqb k) (fun _ => p k) g (fun l' r' g' => Inv (S k) (l ++ l') (fun i => if (i =? k)%nat then r' k else r i) g')) ->
  does N (fun _ => true) p f (Inv N).
Proof.
  intros He H0 HS.
  assert (G : forall k, (k <= N)%nat -> does N (fun i => (i <? k)%nat) p f (Inv k)).
  { induction k as [|k IH]; intros Hk.
    - apply does_ext with (fun i => mret (r0 i)); [intros i Hi E; discriminate E|]. apply does_ret. exact H0.
    - apply does_split with (S1 := fun i => (i <? k)%nat) (Q1 := Inv k).
      + apply does_set with (fun i => (i <? k)%nat); [intros i Hi; destruct (Nat.ltb_spec i k), (Nat.ltb_spec i (S k)); try reflexivity; lia|]. apply IH. lia.
      + intros l r g HI. apply does_set with (Nat.eqb k); [intros i Hi; destruct (Nat.ltb_spec i k), (Nat.ltb_spec i (S k)), (Nat.eqb_spec k i); try reflexivity; lia|].
        apply does_ext with (fun _ => p k); [intros i Hi E; apply Nat.eqb_eq in E; subst; reflexivity|].
        eapply does_mono; [|apply (HS k l r g Hk HI)]. cbv beta. intros l' r' g' H. eapply He; [|exact H]. intros i Hi. cbv beta.
        destruct (Nat.eqb_spec i k), (Nat.ltb_spec i k); try lia; subst; reflexivity. }
  apply does_set with (fun i => (i <? N)%nat); [intros i Hi; symmetry; apply Nat.ltb_lt; exact Hi|]. apply G. lia.
Qed.

(* --------------------------------------------------------- collective calls *)
Section Calls.
Variable N : nat.
Hypothesis HN : (0 < N)%nat.

Section Rel.
Variable E : fs -> fs -> Prop.
Hypothesis E_refl : forall f, E f f.
Hypothesis E_trans : forall f g h, E f g -> E g h -> E f h.
Hypothesis E_sym : forall f g, E f g -> E g f.

Lemma lead_allgather {B} l t (z : nat -> Z) (q : nat -> list Z -> M B) f Q : good E l -> (forall g, E f g -> leads N [] (fun i => q i (map z (seq 0 N))) g Q) ->
  leads N l (fun i => mbind (allgather (world N) t (z i)) (q i)) f Q.
Proof.
  intros G H. unfold allgather. change (leads N l (fun i => mbind (mcoll (world N) (KAllgather t (z i))) (fun v => mbind (many v) (q i))) f Q).
  apply (leads_coll N [] HN E E_refl E_trans E_sym l (fun i => KAllgather t (z i)) (fun _ _ => VZs (map z (seq 0 N)))); [|intros; exact I|exact G|].
  - apply calls_intro; [apply world_all; exact HN|intros; cbn; auto|]. intros i n Hi HS. unfold reply. cbv iota beta. rewrite (gather_all _ (fun j => KAllgather t (z j)) z) by reflexivity. reflexivity.
  - intros g n Eg. exact (H g Eg).
Qed.

Lemma lead_barrier {B} l (q : nat -> val -> M B) f Q : good E l -> (forall g, E f g -> leads N [] (fun i => q i VNone) g Q) ->
  leads N l (fun i => mbind (barrier (world N)) (q i)) f Q.
Proof.
  intros G H. unfold barrier.
  apply (leads_coll N [] HN E E_refl E_trans E_sym l (fun i => KBarrier) (fun _ _ => VNone)); [|intros; exact I|exact G|].
  - apply calls_intro; [apply world_all; exact HN|intros; exact I|]. intros i n Hi HS. unfold reply. cbv iota beta. rewrite (gather_all _ (fun _ => KBarrier) (fun _ => tt)); reflexivity.
  - intros g n Eg. exact (H g Eg).
Qed.

Lemma anywhere_spec (flag : nat -> bool) : existsb (fun z => negb (z =? 0)) (map (fun i => if flag i then 1 else 0) (seq 0 N)) = existsb flag (seq 0 N).
Proof. induction (seq 0 N) as [|x l IH]; [reflexivity|]. cbn [map existsb]. rewrite IH. destruct (flag x); reflexivity. Qed.
Lemma lead_anywhere {B} l (flag : nat -> bool) (q : nat -> bool -> M B) f Q : good E l ->
  (forall g, E f g -> leads N [] (fun i => q i (existsb flag (seq 0 N))) g Q) -> leads N l (fun i => mbind (anywhere (world N) (flag i)) (q i)) f Q.
Proof.
  intros G H. unfold anywhere.
  change (leads N l (fun i => mbind (allgather (world N) CInt (if flag i then 1 else 0)) (fun l => q i (existsb (fun z => negb (z =? 0)) l))) f Q).
  apply (lead_allgather l CInt (fun i => if flag i then 1 else 0)); [exact G|]. intros g Eg. cbv beta. rewrite anywhere_spec. exact (H g Eg).
Qed.
Lemma lead_unique {B} l (name : nat -> bytes) (q : nat -> bool -> M B) f Q : good E l ->
  (forall g, E f g -> leads N [] (fun i => q i (forallb (Z.eqb (name_code (name i))) (map (fun i => name_code (name i)) (seq 0 N)))) g Q) ->
  leads N l (fun i => mbind (check_unique (world N) (name i)) (q i)) f Q.
Proof.
  intros G H. unfold check_unique.
  change (leads N l (fun i => mbind (allgather (world N) CLong (name_code (name i))) (fun l => q i (forallb (Z.eqb (name_code (name i))) l))) f Q).
  apply (lead_allgather l CLong (fun i => name_code (name i))); [exact G|]. exact H.
Qed.
Lemma all_same (name : bytes) : forallb (Z.eqb (name_code name)) (map (fun i => name_code name) (seq 0 N)) = true.
Proof. induction (seq 0 N) as [|x l IH]; [reflexivity|]. cbn [map forallb]. rewrite IH, Z.eqb_refl. reflexivity. Qed.
Lemma lead_same {B} l (name : bytes) (q : nat -> bool -> M B) f Q : good E l ->
  (forall g, E f g -> leads N [] (fun i => q i true) g Q) -> leads N l (fun i => mbind (check_unique (world N) name) (q i)) f Q.
Proof. intros G H. apply (lead_unique l (fun _ => name)); [exact G|]. intros g Eg. cbv beta. rewrite all_same. exact (H g Eg). Qed.
End Rel.

Lemma name_code_pos c r : 0 < name_code (c :: r).
Proof. cbn [name_code]. assert (H : forall l, 0 <= name_code l) by (induction l as [|x l IH]; cbn [name_code]; lia). specialize (H r). lia. Qed.
Lemma name_code_inj a : forall b, name_code a = name_code b -> a = b.
Proof.
  induction a as [|x a IH]; intros [|y b] H; [reflexivity|pose proof (name_code_pos y b); cbn [name_code] in *; lia|pose proof (name_code_pos x a); cbn [name_code] in *; lia|].
  cbn [name_code] in H.
  assert (Bx : forall c, (Byte.to_N c < 256)%N) by (intros c; destruct c; reflexivity). pose proof (Bx x) as X. pose proof (Bx y) as Y.
  assert (E : name_code a = name_code b) by (clear -H X Y; lia). assert (E2 : Byte.to_N x = Byte.to_N y) by lia.
  rewrite (IH _ E). f_equal. assert (Some x = Some y) by (rewrite <- !Byte.of_to_N, E2; reflexivity). congruence.
Qed.

(* Reading all: the opens of several ranks do not disturb each other. *)
Definition only_reads (o : act) : Prop := forall f r f', o f = Ret (r, f') -> f' = f.
Lemma only_reads_good l : (forall i o, In (i, o) l -> only_reads o) -> good eq l.
Proof.
  intros H. split.
  - intros i o Hi f g r f' <- X. eauto.
  - intros i o1 j o2 Hi Hj _. split.
    + intros f r1 f1 r2 f2 H1 H2. pose proof (H _ _ Hi _ _ _ H1). pose proof (H _ _ Hj _ _ _ H2). subst f1 f2. exists f, f. auto.
    + intros f r2 f2 x X2 X1. rewrite (H _ _ Hj _ _ _ X2) in X1. eauto.
Qed.
Lemma open_only_reads e base : only_reads (op_open e base).
Proof. intros f r f' H. unfold op_open, pack_op in H. destruct (big_block_open e f base) as [ob| |]; try discriminate H. cbn [bind snd fst] in H. congruence. Qed.

Lemma lead_pyopen l (e : nat -> env) bf nm f (bo : nat -> block) : good eq l -> (forall i, (i < N)%nat -> big_block_open (e i) f (path_join bf nm) = Ret (Some (bo i))) ->
  leads N l (fun i => pm_open (e i) (world N) bf nm) f (fun res g => g = f /\ forall i, (i < N)%nat -> res i = PyRet (bo i)).
Proof.
  intros G H. unfold pm_open. apply (lead_same eq (@eq_refl _) (@eq_trans _) (@eq_sym _)); [exact G|]. intros g <-. cbv beta. cbn [negb]. cbv iota.
  apply (lead_barrier eq (@eq_refl _) (@eq_trans _) (@eq_sym _)); [apply good_nil|]. intros g <-. cbv beta.
  apply leads_does with (fun l' v f' => (forall i o, In (i, o) l' -> only_reads o) /\ f' = f /\ forall i, (i < N)%nat -> v i = VCode 0 (bo i)).
  { apply (does_each N (fun _ => VNone) (fun i => mio (op_open (e i) (path_join bf nm))) (fun k l' v f' => (forall i o, In (i, o) l' -> only_reads o) /\ f' = f /\ forall i, (i < k)%nat -> v i = VCode 0 (bo i))).
    - intros k l1 r r' g Er (A & B & C). split; [exact A|]. split; [exact B|]. intros i Hi. rewrite <- Er by exact Hi. auto.
    - split; [intros i o []|]. split; [reflexivity|]. intros i Hi. lia.
    - intros k l1 r g Hk (A & -> & C). apply does_io with (r := VCode 0 (bo k)) (f1 := f); [exact Hk|unfold op_open, pack_op; rewrite (H k Hk); reflexivity|].
      split; [|split; [reflexivity|]].
      + intros i o Ho. apply in_app_iff in Ho. destruct Ho as [Ho|[Ho|[]]]; [eauto|]. injection Ho as <- <-. apply open_only_reads.
      + intros i Hi. destruct (Nat.eqb_spec i k); [subst; reflexivity|]. apply C. lia. }
  intros l' v f' (L & -> & V). cbn [app].
  apply leads_ext with (fun i => mbind (anywhere (world N) false) (fun bad => mret (if bad then PyRaise NameError else PyRet (bo i)))).
  { intros i Hi. rewrite (V i Hi). reflexivity. }
  apply (lead_anywhere eq (@eq_refl _) (@eq_trans _) (@eq_sym _) l' (fun _ => false)); [apply only_reads_good; exact L|]. intros g <-. cbv beta.
  replace (existsb (fun _ : nat => false) (seq 0 N)) with false by (symmetry; clear; induction (seq 0 N); cbn; auto).
  cbv iota. apply (leads_ret N (fun i => PyRet (bo i))). auto.
Qed.
End Calls.

(* --------------------------------------------------- one rank writes its rows *)
Section Rank.
Variables (N i : nat) (e : env) (base dt : bytes) (nmemb : Z) (sizes : list Z).
Hypothesis Hi : (i < N)%nat.
Let isz := itemsize (e_me e) dt.
Let w := isz * nmemb.
Hypothesis Hnm31 : 0 < nmemb < 2 ^ 31.
Hypothesis Hwc : w <= e_chunk e.
Hypothesis Hw31 : w < 2 ^ 31.
Hypothesis Hdt : dt_ok (e_me e) dt.
Notation does1 := (does N (Nat.eqb i)).

Record ours (b : block) : Prop := {
  os_base : b_base b = base;
  os_dt : b_dtype b = dt;
  os_nm : b_nmemb b = nmemb;
  os_wb : wblock e b sizes w
}.
(* Rows have been put at row o by this rank. *)
Record put_by (b : block) (o : Z) (rows : list bytes) (f : fs) (l : list (nat * act)) (b' : block) (f' : fs) : Prop := {
  pb_fs : fs_eq f' (put_rows f base sizes w o rows);
  pb_acts : forall j a, In (j, a) l -> j = i /\ row_write base sizes w o (o + zlen rows) a;
  pb_ours : ours b';
  pb_like : like b b';
  pb_sums : b_fchecksum b' = add_sums (b_fchecksum b) sizes o rows;
  pb_dirty : rows <> [] -> b_dirty b' = true;
  pb_none : rows = [] -> b' = b
}.

Lemma like_trans a b c : like a b -> like b c -> like a c.
Proof.
  intros (k1 & d1 & -> & H1) (k2 & d2 & -> & H2). exists k2, d2. split; [reflexivity|]. cbn [set_checksums set_bdirty b_dirty b_fchecksum] in H2.
  intros H. apply H2. destruct d1; [left; reflexivity|]. destruct H as [H|H]; [left; apply H1; left; exact H|].
  right. intros X. apply H. rewrite X. destruct (list_eq_dec Z.eq_dec k1 (b_fchecksum a)) as [Y|Y]; [exact Y|]. discriminate (H1 (or_intror Y)).
Qed.
Lemma put_nil b o f : ours b -> put_by b o [] f [] b f.
Proof. intros H. constructor; [apply fs_eq_refl|intros j a []|exact H|apply like_refl|reflexivity|intros X; destruct (X eq_refl)|reflexivity]. Qed.
Lemma put_app b o r1 r2 f l1 l2 b1 b2 f1 f2 : put_by b o r1 f l1 b1 f1 -> put_by b1 (o + zlen r1) r2 f1 l2 b2 f2 -> put_by b o (r1 ++ r2) f (l1 ++ l2) b2 f2.
Proof.
  intros A B. pose proof (zlen_nonneg r1). pose proof (zlen_nonneg r2). constructor.
  - rewrite put_rows_app. eapply fs_eq_trans; [apply B|]. apply put_rows_ext. apply A.
  - intros j a Hj. rewrite zlen_app. apply in_app_iff in Hj. destruct Hj as [Hj|Hj]; [apply A in Hj|apply B in Hj]; destruct Hj as [-> R]; (split; [reflexivity|]); eapply row_write_sub; [| |exact R| | |exact R]; lia.
  - apply B.
  - eapply like_trans; [apply A|apply B].
  - rewrite add_sums_app, (pb_sums _ _ _ _ _ _ _ B), (pb_sums _ _ _ _ _ _ _ A). reflexivity.
  - intros Hne. destruct r2 as [|x r2]; [|apply B; discriminate]. rewrite app_nil_r in Hne. destruct (like_fields _ _ (pb_like _ _ _ _ _ _ _ B)) as (_ & _ & _ & _ & _ & X & _). apply X, A, Hne.
  - intros Hz. apply app_eq_nil in Hz. destruct Hz as [-> ->]. rewrite (pb_none _ _ _ _ _ _ _ B eq_refl). apply A. reflexivity.
Qed.
Lemma put_files b o rows f l b' f' : put_by b o rows f l b' f' -> files_exist f base sizes -> files_exist f' base sizes.
Proof. intros P H. eapply files_ext; [apply fs_eq_sym; apply P|]. apply put_rows_files. exact H. Qed.

Lemma array_write b p o a m es f : let n := zlen es / nmemb in
  ours b -> 0 < n -> array_ok a -> a_dtype a = dt -> a_size a = n * nmemb -> zlen es = n * nmemb ->
  holds m (elem_addr a) isz 0 es -> elems_disjoint (elem_addr a) isz 0 (zlen es) ->
  ptr_at sizes p o -> o + n <= zsum sizes -> files_exist f base sizes ->
  does1 (fun _ => block_write e b p a m) f (fun l res f' => exists b' p' um', res = (fun _ => (0, b', p', um')) /\ put_by b o (rows_of nmemb n es) f l b' f').
Proof.
  intros n Ob Hn Ha Hda Hsz Hle Hh Hdis Hp Hin Hfe. destruct Ob as [Ob1 Ob2 Ob3 HW].
  pose proof (wb_wpos _ _ _ _ HW) as Hwp. assert (Hisz : 0 < isz) by apply Hdt. pose proof (pa_range _ _ _ Hp) as Hor.
  pose proof (hl_small _ _ (wb_layout _ _ _ _ HW)) as Hsm.
  unfold block_write. rewrite Hsz. replace (n * nmemb =? 0) with false by nia. cbv zeta.
  pose proof (wb_dirty _ _ _ _ true HW) as HW1. set (b1 := set_bdirty b true) in *.
  rewrite (wb_felsize _ _ _ _ HW1). replace (2 ^ 31 <=? Z.abs w) with false by lia. replace (w =? 0) with false by lia.
  pose proof (wb_layout _ _ _ _ HW1) as HL.
  eapply does_loc; [apply chunk_array_init; apply HW1|]. eapply does_loc; [rewrite (ptr_offset _ _ _ _ HL Hp); reflexivity|].
  assert (En1 : b_nmemb b1 = nmemb) by exact Ob3.
  rewrite (pa_abs _ _ _ Hp), (row_nmemb_pos b1), En1 by lia. rewrite Z.div_mul by lia.
  rewrite s64_id by lia. rewrite u64_id by lia. rewrite (hl_size _ _ HL). replace (zsum sizes <? o + n) with false by lia.
  rewrite (chunk_rows_spec _ _ _ _ HW1) by auto. set (cs := e_chunk e / w).
  assert (Hcs : 0 < cs) by (apply Z.div_str_pos; lia).
  assert (Hbm : buf_mapped (chunk_mem e) (cs * w)) by (apply chunk_mem_mapped; unfold cs; rewrite Z.mul_comm; apply Z.mul_div_le; lia).
  assert (Hre : rows_exist f base sizes o (o + n)) by (intros r j q _ Hj; apply home_lt in Hj; apply Hfe, Hj).
  assert (Hda' : dt_ok (e_me e) (a_dtype a)) by (rewrite Hda; exact Hdt).
  destruct (write_loop_spec e sizes w a cs base Ha Hda' Hcs (S (Z.to_nat n)) n f b1 p (chunk_mem e) m (iter_init (e_me e) a) o 0 es es)
      as (f2 & p2 & um2 & E2 & F2 & P2 & S2); rewrite ?Hda; auto; try lia.
  { left. change (b_dtype b1) with (b_dtype b). rewrite Ob2. reflexivity. }
  { apply iter_init_at; auto. }
  { change (b_dtype b1) with (b_dtype b). rewrite Ob2. apply converts_selfs. }
  change (b_nmemb b1) with (b_nmemb b) in E2, F2. rewrite Ob3 in E2, F2. change (b_fchecksum b1) with (b_fchecksum b) in E2.
  eapply does_mono; [|eapply (wloop_does N i Hi e sizes w base _ cs Hcs) with (o := o); [exact HW1|exact Ob1|exact Hp|lia|exact E2]]. cbn beta.
  intros l res f' (-> & -> & HA). eexists _, p2, um2. split; [reflexivity|].
  assert (Lr : zlen (rows_of nmemb n es) = n) by (unfold zlen; rewrite rows_of_length; lia).
  constructor; auto.
  - rewrite Lr. exact HA.
  - constructor; auto. constructor; try apply HW1. apply layout_set_cks; [exact HL|rewrite add_sums_length; apply HL|apply add_sums_range; apply HL].
  - eexists _, true. split; [reflexivity|]. reflexivity.
  - intros X. rewrite X in Lr. change (zlen (@nil bytes)) with 0 in Lr. lia.
Qed.

Lemma part_write b o rows p m f : ours b -> rows <> [] -> Forall (fun v => length v = Z.to_nat w) rows -> 0 <= o -> o + zlen rows <= zsum sizes -> files_exist f base sizes ->
  does1 (fun _ => pm_write e b o (pyarray e dt nmemb p (zlen rows)) (copied p m (concat rows))) f
    (fun l res f' => exists b', res i = (PyRet tt, b') /\ put_by b o rows f l b' f').
Proof.
  intros Ob Hne HF Ho Hs Hfe. pose proof (os_wb _ Ob) as HW. pose proof (wb_layout _ _ _ _ HW) as HL. pose proof (hl_small _ _ HL) as H63.
  destruct (copy_source e dt nmemb Hnm31 Hwc Hw31 Hdt (fun z => (z, m)) p m rows Hne HF) as [(L1 & Hh & _) Hrows]. fold isz in L1, Hh, Hrows. set (es := group _ _ _) in *.
  assert (Hn : 0 < zlen rows) by (destruct rows; [congruence|rewrite zlen_cons; pose proof (zlen_nonneg rows); lia]).
  set (a := pyarray e dt nmemb p (zlen rows)) in *. set (um := copied p m (concat rows)) in *.
  assert (Hnr : nrows nmemb a = zlen rows) by (apply py_nrows; exact Hnm31). rewrite Hnr in L1.
  assert (En : zlen es / nmemb = zlen rows) by (rewrite L1; apply Z.div_mul; lia).
  unfold pm_write.
  destruct (seek_spec b sizes (mkPtr 0 0 0) o HL ltac:(lia)) as (H1 & _ & _). destruct (H1 ltac:(lia)) as (q & E & P).
  eapply does_loc; [exact E|]. cbv iota beta. change (negb (0 =? 0)) with false. cbv iota.
  eapply does_bind.
  - apply (array_write b q o a um es f); auto; rewrite ?En; auto.
    + apply (py_ok e dt nmemb Hnm31). exact Hn.
    + rewrite L1. apply (py_disjoint e dt nmemb Hnm31 Hdt). exact Hn.
  - cbv beta. rewrite En, Hrows. intros l res f' (b' & p' & um' & -> & PB). cbv beta iota. change (negb (0 =? 0)) with false. cbv iota.
    apply (does_ret N (Nat.eqb i) (fun _ => (PyRet tt, b'))). rewrite app_nil_r. exists b'. auto.
Qed.

Variable alloc : Z -> Z * mem.
Lemma chunks_put d rows offset L : dtype_normalize (e_me e) d = dt -> 0 < L -> 0 <= offset -> Forall (fun v => length v = Z.to_nat w) rows -> offset + zlen rows <= zsum sizes ->
  forall fuel f b k, Z.max 0 (zlen rows - k) < Z.of_nat fuel -> 0 <= k -> ours b -> files_exist f base sizes ->
  does1 (fun _ => pm_chunks e alloc b d nmemb rows offset k L fuel) f
    (fun l res f' => exists b', res i = (PyRet tt, b') /\ put_by b (offset + Z.min k (zlen rows)) (skipn (Z.to_nat k) rows) f l b' f').
Proof.
  intros Ed HL Ho HF Hs. induction fuel as [|fuel IH]; intros f b k Hfu Hk Ob Hfe; [lia|]. cbn [pm_chunks].
  destruct (zlen rows <=? k) eqn:E.
  - apply (does_ret N (Nat.eqb i) (fun _ => (PyRet tt, b))). exists b. split; [reflexivity|]. rewrite skipn_all2 by (unfold zlen in E; lia). apply put_nil. exact Ob.
  - set (part := firstn (Z.to_nat L) (skipn (Z.to_nat k) rows)).
    assert (Hpl : zlen part = Z.min L (zlen rows - k)) by (unfold part, zlen in *; rewrite firstn_length, skipn_length; lia).
    assert (Hne : part <> []) by (intros X; rewrite X in Hpl; cbn in Hpl; lia).
    assert (HFp : Forall (fun v => length v = Z.to_nat w) part).
    { unfold part. apply Forall_forall. intros v Hv. rewrite Forall_forall in HF. apply HF. rewrite <- (firstn_skipn (Z.to_nat k) rows). apply in_or_app. right.
      rewrite <- (firstn_skipn (Z.to_nat L) (skipn (Z.to_nat k) rows)). apply in_or_app. left. exact Hv. }
    assert (Esk : skipn (Z.to_nat k) rows = part ++ skipn (Z.to_nat (k + L)) rows).
    { unfold part. replace (Z.to_nat (k + L)) with (Z.to_nat k + Z.to_nat L)%nat by lia. rewrite <- (firstn_skipn (Z.to_nat L) (skipn (Z.to_nat k) rows)) at 1. f_equal. symmetry. apply skipn_add. }
    eapply does_loc; [apply (np_copy_eq e dt nmemb alloc d part Ed)|]. cbv iota beta.
    eapply does_bind; [apply (part_write b (offset + k) part _ _ f Ob Hne HFp); auto; lia|]. cbv beta.
    intros l res f' (b' & R & PB).
    apply does_ext with (fun _ => pm_chunks e alloc b' d nmemb rows offset (k + L) L fuel); [intros j Hj Ej; apply Nat.eqb_eq in Ej; subst j; rewrite R; reflexivity|].
    eapply does_mono; [|apply (IH f' b' (k + L)); [lia|lia|apply PB|eapply put_files; eauto]].
    cbv beta. intros l' res' f'' (b'' & R' & PB'). exists b''. split; [exact R'|]. rewrite Esk. replace (Z.min k (zlen rows)) with k by lia.
    eapply put_app; [exact PB|]. replace (offset + k + zlen part) with (offset + Z.min (k + L) (zlen rows)) by lia. exact PB'.
Qed.
End Rank.

(* ------------------------------------------------------ all ranks write and flush *)
Lemma before_S (n : nat -> Z) i : before n (S i) = before n i + n i.
Proof. unfold before. rewrite seq_S, map_app, zsum_app. cbn [map Nat.add]. rewrite zsum_cons. change (zsum []) with 0. lia. Qed.
Lemma before_le (n : nat -> Z) : (forall i, 0 <= n i) -> forall i j, (i <= j)%nat -> before n i <= before n j.
Proof. intros H i j Hij. induction Hij as [|j Hij IH]; [lia|]. rewrite before_S. specialize (H j). lia. Qed.
Lemma zlen_rows (rows : nat -> list bytes) k : zlen (flat_map rows (seq 0 k)) = before (fun i => zlen (rows i)) k.
Proof.
  induction k as [|k IH]; [reflexivity|]. rewrite seq_S, flat_map_app, zlen_app, IH, before_S. cbn [flat_map Nat.add]. rewrite app_nil_r. reflexivity.
Qed.


Section All.
Variables (N : nat) (me : endian) (e : nat -> env) (base dt : bytes) (nmemb : Z) (sizes : list Z).
Hypothesis HN : (0 < N)%nat.
Hypothesis Hme : forall i, (i < N)%nat -> e_me (e i) = me.
Let w := itemsize me dt * nmemb.
Hypothesis Hnm31 : 0 < nmemb < 2 ^ 31.
Hypothesis Hwc : forall i, (i < N)%nat -> w <= e_chunk (e i).
Hypothesis Hw31 : w < 2 ^ 31.
Hypothesis Hdt : dt_ok me dt.

Record all_put (rows : nat -> list bytes) (b : nat -> block) (f : fs) (k : nat) (l : list (nat * act)) (res : nat -> pyres unit * block) (g : fs) : Prop := {
  ap_fs : fs_eq g (put_rows f base sizes w 0 (flat_map rows (seq 0 k)));
  ap_acts : forall j a, In (j, a) l -> (j < k)%nat /\ row_write base sizes w (before (fun i => zlen (rows i)) j) (before (fun i => zlen (rows i)) (S j)) a;
  ap_res : forall i, (i < k)%nat -> exists b', res i = (PyRet tt, b') /\ ours (e i) base dt nmemb sizes b' /\ like (b i) b' /\
    b_fchecksum b' = add_sums (b_fchecksum (b i)) sizes (before (fun i => zlen (rows i)) i) (rows i)
}.

Lemma chunks_all d rows (alloc : nat -> Z -> Z * mem) L b f : dtype_normalize me d = dt -> 0 < L -> (forall i, (i < N)%nat -> Forall (fun v => length v = Z.to_nat w) (rows i)) ->
  total N (fun i => zlen (rows i)) <= zsum sizes -> (forall i, (i < N)%nat -> ours (e i) base dt nmemb sizes (b i)) -> files_exist f base sizes ->
  does N (fun _ => true) (fun i => pm_chunks (e i) (alloc i) (b i) d nmemb (rows i) (before (fun i => zlen (rows i)) i) 0 L (S (length (rows i)))) f (all_put rows b f N).
Proof.
  intros Ed HL HF Hs Hb Hfe. set (n := fun i => zlen (rows i)) in *. assert (Hn : forall i, 0 <= n i) by (intros i; apply zlen_nonneg).
  apply (does_each N (fun i => (PyRet tt, b i))).
  - intros k l r r' g Er []. constructor; auto. intros i Hi. rewrite <- Er by exact Hi. auto.
  - constructor; [apply fs_eq_refl|intros j a []|intros i Hi; lia].
  - intros k l r g Hk [A1 A2 A3].
    assert (Hw' : itemsize (e_me (e k)) dt * nmemb = w) by (rewrite (Hme k Hk); reflexivity).
    assert (Hbk : 0 <= before n k). { pose proof (before_le n Hn 0 k ltac:(lia)) as X. exact X. }
    assert (Hbn : before n (S k) <= total N n) by (change (total N n) with (before n N); apply before_le; [exact Hn|lia]). rewrite before_S in Hbn.
    eapply does_mono; [|apply (chunks_put N k (e k) base dt nmemb sizes Hk Hnm31) with (L := L)]; rewrite ?Hw', ?(Hme k Hk); auto.
    + cbv beta. change (skipn (Z.to_nat 0) (rows k)) with (rows k). replace (before n k + Z.min 0 (zlen (rows k))) with (before n k) by (pose proof (Hn k); unfold n in *; lia).
      intros l' r' g' (b' & R & PB). constructor.
      * rewrite seq_S, flat_map_app. cbn [flat_map Nat.add]. rewrite app_nil_r, put_rows_app, zlen_rows. fold n. eapply fs_eq_trans; [rewrite <- Hw'; apply PB|]. rewrite Hw'. apply put_rows_ext. exact A1.
      * intros j a Hj. apply in_app_iff in Hj. destruct Hj as [Hj|Hj]; [apply A2 in Hj; destruct Hj; split; [lia|assumption]|].
        destruct (pb_acts _ _ _ _ _ _ _ _ _ _ _ _ _ PB j a Hj) as [-> RW]. split; [lia|]. rewrite before_S. rewrite Hw' in RW. exact RW.
      * intros i Hi. destruct (Nat.eqb_spec i k) as [->|Hne]; [|apply A3; lia]. exists b'. split; [exact R|]. split; [apply PB|]. split; [apply PB|]. apply PB.
    + change (n k) with (zlen (rows k)) in Hbn. lia.
    + unfold zlen. lia.
    + lia.
    + eapply files_ext; [apply fs_eq_sym; exact A1|]. apply put_rows_files. exact Hfe.
Qed.
Lemma all_put_good rows b f l res g : Forall (fun s => 0 <= s) sizes -> zlen sizes < 2 ^ 31 -> 0 < w -> all_put rows b f N l res g -> good fs_eq l.
Proof.
  intros H1 H2 H3 [_ A _]. split.
  - intros i o Hi. destruct (A i o Hi) as [_ RW]. apply row_write_some in RW. destruct RW as (p & pos & l0 & ->). apply op_write_respects.
  - intros i o j o' Hi Hj Hne. destruct (A i o Hi) as [_ RW]. destruct (A j o' Hj) as [_ RW']. eapply row_writes_commute; eauto.
    assert (Hn : forall i, 0 <= zlen (rows i)) by (intros; apply zlen_nonneg).
    destruct (Nat.lt_ge_cases i j); [left; apply before_le; [exact Hn|lia]|right; apply before_le; [exact Hn|lia]].
Qed.

Lemma all_some_map {A B} (h : A -> B) l : all_some (map (fun x => Some (h x)) l) = Some (map h l).
Proof. induction l as [|x l IH]; [reflexivity|]. cbn [map all_some]. rewrite IH. reflexivity. Qed.
Lemma nth_firstn_lt (l : list Z) n j d : (j < n)%nat -> nth j (firstn n l) d = nth j l d.
Proof. revert n j. induction l as [|x l IH]; intros [|n] [|j] H; try reflexivity; try lia. cbn [firstn nth]. apply IH. lia. Qed.

Lemma lead_pyflush junk (nbase : nat -> Z) l b f (K : fs -> fs -> block -> Prop) : good fs_eq l ->
  (forall i, (i < N)%nat -> b_Nfile (b i) = b_Nfile (b 0%nat) /\ b_Nfile (b 0%nat) <= zlen (b_fchecksum (b i))) -> 0 <= b_Nfile (b 0%nat) ->
  (forall g, fs_eq f g -> exists h b1, big_block_flush (e 0%nat) g (merged N b) = Ret (0, h, b1) /\ transferable me b1 /\ K g h b1) ->
  leads N l (fun i => pm_flush (junk i) (e i) (world N) i (nbase i) (b i)) f (fun res h => exists g b1, fs_eq f g /\ K g h b1 /\ forall i, (i < N)%nat -> exists b', res i = PyRet b').
Proof.
  intros Gl HNf Hn HK. set (n := Z.to_nat (b_Nfile (b 0%nat))). unfold pm_flush. cbv zeta.
  apply (lead_anywhere N HN fs_eq fs_eq_refl fs_eq_trans fs_eq_sym l (fun i => b_dirty (b i))); [exact Gl|]. intros g Eg. cbv beta. set (D := existsb (fun i => b_dirty (b i)) (seq 0 N)).
  destruct (HK g Eg) as (h & b1 & Ef & Tr & HKg). clear HK.
  pose (op := op_flush (e 0%nat) (merged N b)).
  assert (Eop : op g = Ret (VCode 0 b1, h)) by (unfold op, op_flush; rewrite Ef; reflexivity).
  assert (Hlen : forall i, (i < N)%nat -> length (firstn n (b_fchecksum (b i))) = n). { intros i Hi. destruct (HNf i Hi) as [A1 A2]. rewrite firstn_length. unfold n, zlen in *. lia. }
  set (bs := fun i => if 0 <? b_Nfile (b 0%nat) then set_checksums (b i) (map (fun j => recorded N b j mod 2 ^ 32) (seq 0 n) ++ skipn n (b_fchecksum (b i))) else b i).
  set (rest := fun i b => mbind (if (rank_in (world N) i =? 0)%nat then mbind (mio (op_flush (e i) (set_bdirty b D))) (fun v => mret (match v with VCode rc b => (rc, b) | _ => (-1, b) end)) else mret (0, b)) (fun '(rt, b) =>
     mbind (broadcast (junk i) (e i) (world N) i 0 (nbase i) b) (fun b => mbind (anywhere (world N) (negb (rt =? 0))) (fun bad => if (bad : bool) then mret (PyRaise BigError) else mbind (barrier (world N)) (fun _ => mret (PyRet b)))))).
  assert (Rest : leads N [] (fun i => rest i (bs i)) g (fun res h => exists g b1, fs_eq f g /\ K g h b1 /\ forall i, (i < N)%nat -> exists b', res i = PyRet b')).
  { unfold rest.
    apply leads_does with (fun l res f' => l = [(0%nat, op)] /\ f' = h /\ forall i, (i < N)%nat -> res i = if (i =? 0)%nat then (0, b1) else (0, bs i)).
    { apply (does_root N) with (r := 0%nat) (d := fun i => (0, bs i)); [exact HN|reflexivity|intros i Hi _; rewrite (rank_world N HN) by exact Hi; destruct i; reflexivity|reflexivity|].
      apply does_ext with (fun _ => mbind (mio op) (fun v => mret (match v with VCode rc b => (rc, b) | _ => (-1, bs 0%nat) end))).
      { intros i Hi Ei. apply Nat.eqb_eq in Ei. subst i. replace op with (op_flush (e 0%nat) (set_bdirty (bs 0%nat) D)); [reflexivity|]. unfold op. f_equal. unfold bs, merged. fold n.
        destruct (Z.ltb_spec 0 (b_Nfile (b 0%nat))) as [Hp|Hz]; [reflexivity|]. replace n with 0%nat by (unfold n; lia). cbn [seq map app skipn]. fold D. destruct (b 0%nat); reflexivity. }
      apply does_bind with (fun l res f' => l = [(0%nat, op)] /\ f' = h /\ res 0%nat = VCode 0 b1).
      - apply does_io with (r := VCode 0 b1) (f1 := h); [exact HN|exact Eop|]. auto.
      - intros l0 res f' (-> & -> & R). apply does_ext with (fun _ => mret (0, b1)); [intros i Hi Ei; apply Nat.eqb_eq in Ei; subst i; rewrite R; reflexivity|].
        apply does_ret. rewrite app_nil_r. split; [reflexivity|]. split; [reflexivity|]. intros i Hi. destruct i; reflexivity. }
    intros l0 res f' (-> & -> & R). cbn [app].
    apply leads_ext with (fun i => mbind (broadcast (junk i) (e i) (world N) i 0 (nbase i) (snd (res i))) (fun b => mbind (anywhere (world N) false) (fun bad => if (bad : bool) then mret (PyRaise BigError) else mbind (barrier (world N)) (fun _ => mret (PyRet b))))).
    { intros i Hi. rewrite (R i Hi). destruct i; reflexivity. }
    apply leads_does with (fun l' rb f' => l' = [] /\ f' = h).
    { apply (does_send N me (fun i => junk i) e nbase HN Hme); [rewrite R by exact HN; exact Tr|]. intros rb HS. auto. }
    intros l1 rb f' (-> & ->).
    apply (lead_anywhere N HN eq (@eq_refl _) (@eq_trans _) (@eq_sym _) _ (fun _ => false)); [apply good_eq; intros i o [[= <- <-]|[]]; reflexivity|]. intros x <-. cbv beta.
    replace (existsb (fun _ : nat => false) (seq 0 N)) with false by (symmetry; clear; induction (seq 0 N); cbn; auto). cbv iota.
    apply (lead_barrier N HN eq (@eq_refl _) (@eq_trans _) (@eq_sym _)); [apply good_nil|]. intros x <-. cbv beta.
    apply (leads_ret N (fun i => PyRet (rb i))). exists g, b1. split; [exact Eg|]. split; [exact HKg|]. intros i Hi. eauto. }
  destruct (0 <? b_Nfile (b 0%nat)) eqn:En.
  - apply leads_ext with (fun i => mbind (mcoll (world N) (KAllreduce CUint RSum (firstn n (b_fchecksum (b i))))) (fun v => mbind (many v) (fun sums => rest i (set_checksums (b i) (sums ++ skipn n (b_fchecksum (b i))))))).
    { intros i Hi. destruct (HNf i Hi) as [A1 _]. rewrite A1, En. fold n. reflexivity. }
    apply (leads_coll N [] HN eq (@eq_refl _) (@eq_trans _) (@eq_sym _) [] (fun i => KAllreduce CUint RSum (firstn n (b_fchecksum (b i)))) (fun _ _ => VZs (map (fun j => recorded N b j mod 2 ^ 32) (seq 0 n)))); [|intros; exact I|apply good_nil|].
    + apply calls_intro; [apply world_all; exact HN| |].
      * intros i j Hi _ Hj. cbn [c_mem world] in Hj. apply in_seq in Hj. cbn. rewrite !Hlen by lia. auto.
      * intros i k Hi HS. unfold reply. cbv iota beta. rewrite (gather_all _ (fun j => KAllreduce CUint RSum (firstn n (b_fchecksum (b j)))) (fun j => firstn n (b_fchecksum (b j)))) by reflexivity.
        rewrite Hlen by exact Hi. unfold reduce. cbn [c_mem world].
        replace (map _ (seq 0 n)) with (map (fun j => Some (recorded N b j mod 2 ^ 32)) (seq 0 n)); [rewrite all_some_map; reflexivity|].
        apply map_ext_in. intros j Hj. apply in_seq in Hj. cbn [reduce1]. unfold u32. do 2 f_equal. unfold recorded, column. f_equal. rewrite map_map. apply map_ext_in. intros x Hx. symmetry. apply nth_firstn_lt. lia.
    + intros g' k <-. cbn [many]. exact Rest.
  - apply leads_ext with (fun i => rest i (bs i)); [|exact Rest]. intros i Hi. destruct (HNf i Hi) as [A1 _]. rewrite A1, En. reflexivity.
Qed.
End All.

(* ---------------------------------------------------------------- the invariant *)
Section Inv.
Variables (N : nat) (me : endian) (e : nat -> env) (base dt : bytes) (nmemb : Z).
Hypothesis HN : (0 < N)%nat.
Hypothesis Hme : forall i, (i < N)%nat -> e_me (e i) = me.
Let w := itemsize me dt * nmemb.
Hypothesis Hbn : block_name base.
Hypothesis Hty : header_type dt.
Hypothesis Hnm31 : 0 < nmemb < 2 ^ 31.
Hypothesis Hwc : forall i, (i < N)%nat -> w <= e_chunk (e i).
Hypothesis Hw31 : w < 2 ^ 31.
Hypothesis Hdt : dt_ok me dt.
Hypothesis Hnb : nul_free base.
Notation cinv := (cinv N me e base dt nmemb w).
Notation tracked := (tracked N e base dt nmemb w).

Lemma recorded_put sizes (rows : nat -> list bytes) (b b' : nat -> block) j : (j < length sizes)%nat ->
  (forall i, (i < N)%nat -> (length (b_fchecksum (b i)) = S (length sizes)) /\ Forall (fun c => 0 <= c < 2 ^ 32) (b_fchecksum (b i)) /\
     b_fchecksum (b' i) = add_sums (b_fchecksum (b i)) sizes (before (fun i => zlen (rows i)) i) (rows i)) ->
  recorded N b' j mod 2 ^ 32 = (recorded N b j + bytes_into sizes j 0 (flat_map rows (seq 0 N))) mod 2 ^ 32.
Proof.
  intros Hj H. unfold recorded.
  assert (G : forall k, (k <= N)%nat -> zsum (map (fun i => nth j (b_fchecksum (b' i)) 0) (seq 0 k)) mod 2 ^ 32 =
     (zsum (map (fun i => nth j (b_fchecksum (b i)) 0) (seq 0 k)) + bytes_into sizes j 0 (flat_map rows (seq 0 k))) mod 2 ^ 32).
  { induction k as [|k IH]; intros Hk; [reflexivity|]. specialize (IH ltac:(lia)). destruct (H k ltac:(lia)) as (L & R & E).
    rewrite seq_S, !map_app, !zsum_app, flat_map_app, bytes_into_app, zlen_rows. cbn [map flat_map Nat.add]. rewrite !zsum_cons, app_nil_r. change (zsum []) with 0. rewrite !Z.add_0_r, Z.add_0_l.
    rewrite E. rewrite (add_sums_nth sizes (rows k) j _ _ (nth j (b_fchecksum (b k)) 0)); [|rewrite L; lia|].
    2:{ symmetry. apply Z.mod_small. rewrite Forall_forall in R. apply R. apply nth_In. lia. }
    set (x := zsum (map (fun i => nth j (b_fchecksum (b' i)) 0) (seq 0 k))) in *. set (y := zsum (map (fun i => nth j (b_fchecksum (b i)) 0) (seq 0 k))) in *.
    set (u := bytes_into sizes j 0 _) in *. set (v := bytes_into sizes j _ (rows k)). set (c := nth j (b_fchecksum (b k)) 0).
    rewrite Zplus_mod_idemp_r, <- Zplus_mod_idemp_l, IH, Zplus_mod_idemp_l. f_equal. lia. }
  apply (G N). lia.
Qed.

Lemma put_inv t f g rows (b b' : nat -> block) : let all := flat_map rows (seq 0 N) in
  cinv t f b -> tracked t f b -> zlen all <= t_size t -> (forall i, (i < N)%nat -> Forall (fun v => length v = Z.to_nat w) (rows i)) ->
  (forall q, 0 <= q < zlen all -> t_row t q = None) ->
  fs_eq g (put_rows f base (t_sizes t) w 0 all) ->
  (forall i, (i < N)%nat -> ours (e i) base dt nmemb (t_sizes t) (b' i) /\ like (b i) (b' i) /\
     b_fchecksum (b' i) = add_sums (b_fchecksum (b i)) (t_sizes t) (before (fun i => zlen (rows i)) i) (rows i)) ->
  cinv (with_rows t 0 all) g b' /\ tracked (with_rows t 0 all) g b'.
Proof.
  intros all I [T1 T2] Hin HF Honce Eg HB.
  pose proof (ci_wb _ _ _ _ _ _ _ _ _ _ I 0%nat HN) as W0. pose proof (wb_layout _ _ _ _ W0) as HL. pose proof (wb_wpos _ _ _ _ W0) as Hwp.
  destruct (ci_v _ _ _ _ _ _ _ _ _ _ I) as (v & ts & Iv & Dv).
  assert (Wr : Forall (fun u => length u = Z.to_nat w) all).
  { apply Forall_forall. intros u Hu. apply in_flat_map in Hu. destruct Hu as (i & Hi & Hu). apply in_seq in Hi. specialize (HF i ltac:(lia)). rewrite Forall_forall in HF. auto. }
  assert (HK : forall i, (i < N)%nat -> like (b i) (b' i)) by (intros i Hi; apply (HB i Hi)).
  assert (HWb : forall i, (i < N)%nat -> wblock (e i) (b' i) (t_sizes t) w) by (intros i Hi; destruct (HB i Hi) as ([_ _ _ X] & _); rewrite (Hme i Hi) in X; exact X).
  assert (Hrec : forall j, (j < length (t_sizes t))%nat -> recorded N b' j mod 2 ^ 32 = (recorded N b j + bytes_into (t_sizes t) j 0 all) mod 2 ^ 32).
  { intros j Hj. apply recorded_put; [exact Hj|]. intros i Hi. pose proof (wb_layout _ _ _ _ (ci_wb _ _ _ _ _ _ _ _ _ _ I i Hi)) as HLi. split; [apply HLi|]. split; [apply HLi|]. apply (HB i Hi). }
  assert (Iv' : hinv (e 0%nat) base dt nmemb w (resum (with_rows t 0 all) ts) g v).
  { apply (hinv_rows _ _ _ _ _ (resum t ts) f g v 0 all); auto; lia. }
  assert (I' : cinv (with_rows t 0 all) g b').
  { constructor.
    - intros i Hi. apply (HB i Hi).
    - intros i Hi. apply (HB i Hi).
    - intros i Hi. apply (HB i Hi).
    - exact HWb.
    - exists v, ts. split; [exact Iv'|]. intros D. destruct (Dv D) as (i & Hi & Di). exists i. split; [exact Hi|]. destruct (like_fields _ _ (HK i Hi)) as (_ & _ & _ & _ & _ & X & _). apply X. exact Di.
    - eapply like_handle; [apply (HK 0%nat HN)|apply (HWb 0%nat HN)|exact W0|apply I].
    - destruct (like_fields _ _ (HK 0%nat HN)) as (_ & _ & _ & -> & _). apply I.
    - apply (bare_frame base f); [apply I|]. intros q Hq. rewrite Eg. apply put_rows_frame_exact. intros r i k Hr Hh ->. apply (Hq (Z.of_nat i)); [lia|reflexivity]. }
  split; [exact I'|].
  assert (Hnew : forall j, (j < length (t_sizes t))%nat -> nth j (b_fchecksum (merged N b')) 0 = (nth j (b_fchecksum (merged N b)) 0 + bytes_into (t_sizes t) j 0 all) mod 2 ^ 32).
  { intros j Hj. rewrite (merged_nth N b' (t_sizes t) (e 0%nat) w j (HWb 0%nat HN) Hj), (merged_nth N b (t_sizes t) (e 0%nat) w j W0 Hj), (Hrec j Hj). rewrite Zplus_mod_idemp_l. reflexivity. }
  split.
  - change (t_sizes (with_rows t 0 all)) with (t_sizes t). eapply sums_ok_ext; [intros q; symmetry; apply Eg|].
    assert (Lm : length (b_fchecksum (merged N b)) = S (length (t_sizes t))) by (apply (hl_cks _ _ (wb_layout _ _ _ _ (merged_wblock N e b (t_sizes t) w HN (ci_wb _ _ _ _ _ _ _ _ _ _ I))))).
    eapply sums_by; [|apply (sums_put_rows base (t_sizes t) w all f 0 (b_fchecksum (merged N b)))]; try apply HL; auto; try apply Iv.
    + intros j Hj. rewrite (Hnew j Hj). symmetry. apply add_sums_nth; [rewrite Lm; lia|]. rewrite (merged_nth N b (t_sizes t) (e 0%nat) w j W0 Hj). rewrite Zmod_mod. reflexivity.
    + rewrite Lm. lia.
    + intros r Hr u Hu. destruct (hv_zero _ _ _ _ _ _ _ _ Iv _ _ Hu) as [X|(_ & -> & _)]; [|reflexivity]. cbn [resum t_row] in X. rewrite Honce in X by exact Hr. discriminate X.
  - intros Hcl. destruct T2 as (v2 & ts2 & Iv2 & Dv2 & Hn2).
    { intros i Hi. specialize (Hcl i Hi). destruct (b_dirty (b i)) eqn:D; [|reflexivity]. destruct (like_fields _ _ (HK i Hi)) as (_ & _ & _ & _ & _ & X & _). rewrite X in Hcl by exact D. discriminate Hcl. }
    exists v2, ts2. split; [apply (hinv_rows _ _ _ _ _ (resum t ts2) f g v2 0 all); auto; lia|]. split; [exact Dv2|].
    intros j Hj. change (t_sizes (with_rows t 0 all)) with (t_sizes t) in Hj. rewrite (Hn2 j Hj). rewrite (merged_nth N b' (t_sizes t) (e 0%nat) w j (HWb 0%nat HN) Hj), (merged_nth N b (t_sizes t) (e 0%nat) w j W0 Hj).
    f_equal. unfold recorded. f_equal. apply map_ext_in. intros i Hi. apply in_seq in Hi. destruct (like_fields _ _ (HK i ltac:(lia))) as (_ & _ & _ & _ & _ & _ & X). rewrite X by (apply Hcl; lia). reflexivity.
Qed.
End Inv.

(* ------------------------------------------------------------------ a new block *)
Lemma make_fresh e f bf nm d nmemb sizes : let base := path_join bf nm in let dt := dtype_normalize (e_me e) d in
  block_name base -> layout_ok sizes -> zlen sizes <= 2 ^ 24 -> way_made f (resolve bf) -> creatable f base -> fs_get f (attr1_path base) = None ->
  0 < nmemb -> dt_ok (e_me e) dt ->
  exists f' b, big_file_create_block e f bf nm (Some d) nmemb (zlen sizes) sizes = Ret (f', Some b) /\
    hinv e base dt nmemb (itemsize (e_me e) dt * nmemb) (new_table sizes) f' b /\ b_dirty b = false /\ b_fchecksum b = repeat 0 (S (length sizes)) /\
    bare base f' /\ (forall i, (i < length sizes)%nat -> data_file f' base i = Some []) /\
    (forall q n, ~ own_file base q -> fs_get f q = Some n -> fs_get f' q = Some n).
Proof.
  intros base dt HB Hlay HN Hmade [W B] Ha1 Hnm Hdt. pose proof HB as (B1 & B2 & B3). pose proof (join_len bf nm) as Hjl. fold base in Hjl.
  assert (Hne : base <> []) by (intros X; rewrite X in B1; discriminate B1).
  destruct (mksubdir_succeeds f bf nm) as (f1 & E1 & M1); [lia|exact Hne|exact Hmade|exact W|].
  destruct (mksubdir_new f bf nm 0 f1 ltac:(lia) E1) as [N1 _]. fold base in M1, N1.
  assert (Hown : forall p, in_block base p -> exists c, p = resolve base ++ [c]) by (intros p Hp; apply in_block_app; exact Hp).
  assert (Hnew : forall p, own_file base p -> fs_get f1 p <> Some Dir).
  { intros p Hp X. destruct (Hown p (or_introl Hp)) as (c & Ep). destruct (fs_get f p) as [n|] eqn:E.
    - rewrite (proj1 N1 _ _ E) in X. injection X as ->. exact (B p Hp E).
    - destruct (proj2 N1 _ _ E X) as [_ Y]. rewrite Ep in Y. exact (not_longer _ _ Y). }
  assert (Ha : fs_get f1 (attr1_path base) = None).
  { destruct (fs_get f1 (attr1_path base)) as [n|] eqn:E; [|reflexivity]. destruct (proj2 N1 _ _ Ha1 E) as [_ Y].
    destruct (Hown _ (or_intror eq_refl)) as (c & Ep). rewrite Ep in Y. destruct (not_longer _ _ Y). }
  assert (D1 : block_dir f1 base).
  { split; [apply M1, prefix_refl|]. split; [apply Hnew; left; auto|]. split; [apply Hnew; right; left; auto|].
    intros i Hi. apply Hnew. right. right. eauto. }
  destruct (hist_create e f1 base d nmemb sizes HB D1 Hlay HN Ha Hnm Hdt) as (f2 & b & E2 & I & Hs).
  exists f2, b. unfold big_file_create_block. rewrite E1. change (0 =? 0) with true. cbv iota. fold base. rewrite E2.
  destruct (create_spec e f1 base d nmemb sizes HB D1 Hlay) as (f2' & b' & E' & Lay & Edt & Enm & Eb & Hok1 & Hdi & Hadi & Hck & Hd' & Hh & Ha2 & Hdata & O).
  rewrite E2 in E'. injection E' as <- <-.
  pose proof (create_frames _ _ _ _ _ _ _ _ _ B2 E2) as Fr.
  split; [reflexivity|]. split; [exact I|]. split; [exact Hdi|]. split; [exact Hck|]. split; [|split; [exact Hdata|]].
  - split; [|right; exact Ha2]. rewrite O; auto. intros [X|[X|(j & Hj & X)]]; [symmetry in X; revert X; apply header_not_attr1|revert X; apply attr1_not_attr2|symmetry in X; revert X; apply data_not_attr1; lia].
  - intros q n Hq Hf. rewrite Fr; [apply N1; exact Hf|exact Hq].
Qed.

Section Make.
Variables (N : nat) (me : endian) (e : nat -> env) (bf nm d : bytes) (nmemb : Z).
Hypothesis HN : (0 < N)%nat.
Hypothesis Hme : forall i, (i < N)%nat -> e_me (e i) = me.
Let base := path_join bf nm.
Let dt := dtype_normalize me d.
Let w := itemsize me dt * nmemb.
Hypothesis Hbn : block_name base.
Hypothesis Hty : header_type dt.
Hypothesis Hnm31 : 0 < nmemb < 2 ^ 31.
Hypothesis Hwc : forall i, (i < N)%nat -> w <= e_chunk (e i).
Hypothesis Hw31 : w < 2 ^ 31.
Hypothesis Hdt : dt_ok me dt.
Hypothesis Hnb : nul_free base.
Notation cinv := (cinv N me e base dt nmemb w).
Notation tracked := (tracked N e base dt nmemb w).

(* FileMPI.create *)
Lemma lead_pycreate size n f f1 b1 (bo : nat -> block) : 0 <= n -> (n = 0 -> size = 0) ->
  big_file_create_block (e 0%nat) f bf nm (Some d) nmemb n (np_split size n) = Ret (f1, Some b1) -> b_dirty b1 = false -> as_dirty (b_attrset b1) = false ->
  (forall i, (i < N)%nat -> big_block_open (e i) f1 base = Ret (Some (bo i))) ->
  leads N [] (fun i => pm_create (e i) (world N) i bf nm d nmemb size n) f (fun res g => g = f1 /\ forall i, (i < N)%nat -> res i = PyRet (bo i)).
Proof.
  intros Hn0 Hn1 Ec D A Ho. unfold pm_create, pm_bind at 1. 
  eapply leads_bind with (Q1 := fun res g => g = f1 /\ forall i, (i < N)%nat -> res i = PyRet (bo i)).
  - unfold pm_create_column. apply (lead_same N HN eq (@eq_refl _) (@eq_trans _) (@eq_sym _)); [apply good_nil|]. intros g <-. cbv beta. cbn [negb]. cbv iota. unfold pm_bind.
    pose (o1 := op_create_block (e 0%nat) bf nm d nmemb n (np_split size n)). pose (o2 := op_flush (e 0%nat) b1).
    assert (Eo1 : o1 f = Ret (VCode 0 b1, f1)) by (unfold o1, op_create_block, pack_op; rewrite Ec; reflexivity).
    assert (Eo2 : o2 f1 = Ret (VCode 0 b1, f1)) by (unfold o2, op_flush; rewrite (flush_clean (e 0%nat) f1 b1 D A); reflexivity).
    apply leads_does with (fun l res f' => l = [(0%nat, o1); (0%nat, o2)] /\ f' = f1 /\ forall i, (i < N)%nat -> res i = PyRet tt).
    { apply (does_root N) with (r := 0%nat) (d := fun i => PyRet tt); [exact HN|reflexivity|intros i Hi _; rewrite (rank_world N HN) by exact Hi; destruct i; reflexivity|reflexivity|].
      apply does_ext with (fun _ => mbind (mio o1) (fun v => match v with VCode _ b => mbind (mio (op_flush (e 0%nat) b)) (fun v => mret (match v with VCode rc _ => if negb (rc =? 0) then PyRaise BigError else PyRet tt | _ => PyRaise BigError end)) | _ => mret (PyRaise BigError) end)).
      { intros i Hi _. unfold pm_create_root. replace (n <? 0) with false by lia. replace ((n =? 0) && negb (size =? 0)) with false by lia. reflexivity. }
      apply does_bind with (fun l res f' => l = [(0%nat, o1)] /\ f' = f1 /\ res 0%nat = VCode 0 b1).
      { apply does_io with (r := VCode 0 b1) (f1 := f1); [exact HN|exact Eo1|auto]. }
      intros l res f' (-> & -> & R). apply does_ext with (fun _ => mbind (mio o2) (fun v => mret (match v with VCode rc _ => if negb (rc =? 0) then PyRaise BigError else PyRet tt | _ => PyRaise BigError end))).
      { intros i Hi Ei. apply Nat.eqb_eq in Ei. subst i. rewrite R. reflexivity. }
      apply does_bind with (fun l res f' => l = [(0%nat, o2)] /\ f' = f1 /\ res 0%nat = VCode 0 b1).
      { apply does_io with (r := VCode 0 b1) (f1 := f1); [exact HN|exact Eo2|auto]. }
      intros l res2 f' (-> & -> & R2). apply does_ext with (fun _ => mret (PyRet tt)).
      { intros i Hi Ei. apply Nat.eqb_eq in Ei. subst i. rewrite R2. reflexivity. }
      apply does_ret. split; [reflexivity|]. split; [reflexivity|]. intros i Hi. destruct (0 =? i)%nat; reflexivity. }
    intros l res f' (-> & -> & R). cbn [app].
    apply leads_ext with (fun i => pm_open (e i) (world N) bf nm). { intros i Hi. rewrite (R i Hi). reflexivity. }
    apply (lead_pyopen N HN); [|exact Ho]. apply good_eq. intros i o [[= <- <-]|[[= <- <-]|[]]]; reflexivity.
  - intros res g (-> & R).
    apply leads_ext with (fun i => mbind (mcoll (world N) (KBcast 0 0 VNone)) (fun _ => mret (PyRet (bo i)))). { intros i Hi. rewrite (R i Hi). reflexivity. }
    apply leads_does with (fun l res f' => l = [] /\ f' = f1).
    { apply (does_bcast N) with (root := fun _ => 0%nat) (n := fun _ => 0) (v := fun _ => VNone) (src := fun _ => 0%nat); [apply world_all; exact HN| |auto].
      intros i Hi _. split; [|auto]. cbn [c_mem world]. destruct N; [lia|reflexivity]. }
    intros l res0 f' (-> & ->). cbn [app]. apply (leads_ret N (fun i => PyRet (bo i))). auto.
Qed.

(* The handles every rank gets. *)
Lemma fresh_handles sizes f1 b1 (bo : nat -> block) : hinv (e 0%nat) base dt nmemb w (new_table sizes) f1 b1 -> b_dirty b1 = false -> b_fchecksum b1 = repeat 0 (S (length sizes)) ->
  bare base f1 -> (forall i, (i < length sizes)%nat -> data_file f1 base i = Some []) ->
  (forall i, (i < N)%nat -> hinv (e i) base dt nmemb w (new_table sizes) f1 (bo i) /\ transferable me (bo i) /\ b_dirty (bo i) = false /\
     forall j, (j < length sizes)%nat -> nth j (b_fchecksum (bo i)) 0 = 0) ->
  cinv (new_table sizes) f1 bo /\ tracked (new_table sizes) f1 bo.
Proof.
  intros I D Hck Ba Hdata HB.
  assert (I0 : cinv (new_table sizes) f1 bo).
  { constructor; try (intros i Hi; apply (HB i Hi)); [|apply (HB 0%nat HN)|apply (HB 0%nat HN)|exact Ba].
    exists b1, (fun _ => 0). split; [exact I|]. rewrite D. discriminate. }
  split; [exact I0|].
  assert (Hm : forall j, (j < length sizes)%nat -> nth j (b_fchecksum (merged N bo)) 0 = 0).
  { intros j Hj. rewrite (merged_nth N _ sizes (e 0%nat) w j (ci_wb _ _ _ _ _ _ _ _ _ _ I0 0%nat HN) Hj). unfold recorded.
    rewrite (map_ext_in _ (fun _ => 0)); [|intros i Hi; apply in_seq in Hi; apply (HB i ltac:(lia)); exact Hj].
    assert (Z : forall l : list nat, zsum (map (fun _ => 0) l) = 0) by (induction l as [|x l IHl]; [reflexivity|cbn [map]; rewrite zsum_cons, IHl; reflexivity]). rewrite Z. reflexivity. }
  split.
  - intros i c Hi Hc. cbn [new_table t_sizes] in Hi. rewrite Hm by exact Hi. rewrite Hdata in Hc by exact Hi. injection Hc as <-. reflexivity.
  - intros _. exists b1, (fun _ => 0). split; [exact I|]. split; [exact D|]. cbn [new_table t_sizes]. intros j Hj. rewrite Hm by exact Hj. rewrite Hck. apply nth_repeat0_z.
Qed.

Lemma choose_all (P : nat -> block -> Prop) : (forall i, (i < N)%nat -> exists b, P i b) -> exists b : nat -> block, forall i, (i < N)%nat -> P i (b i).
Proof.
  clear -HN. intros H. destruct (H 0%nat HN) as (b0 & _). assert (G : forall m, (m <= N)%nat -> exists b : nat -> block, forall i, (i < m)%nat -> P i (b i)); [|apply (G N); lia].
  induction m as [|m IH]; intros Hm; [exists (fun _ => b0); intros i Hi; lia|]. destruct IH as (F & HF); [lia|]. destruct (H m ltac:(lia)) as (x & Hx).
  exists (fun i => if (i =? m)%nat then x else F i). intros i Hi. destruct (Nat.eqb_spec i m) as [->|Hne]; [exact Hx|apply HF; lia].
Qed.

(* What a rank finds in the end. *)
Definition got (alloc : nat -> Z -> Z * mem) (sizes : list Z) (all : list bytes) (f : fs) (i : nat) (g : fs) (b : block) : Prop :=
  b_size b = zlen all /\ b_dtype b = dt /\ b_nmemb b = nmemb /\ b_Nfile b = zlen sizes /\
  (exists a m, py_getitem (e i) (alloc i) g b IEllipsis = Ret (PyRet (a, m)) /\ array_rows (itemsize me dt) nmemb dt a m all) /\
  sums_ok g base sizes (b_fchecksum b).

Lemma from_arrays (junk : nat -> nat -> nat -> byte) (nbase : nat -> Z) (alloc : nat -> Z -> Z * mem) f (rows : nat -> list bytes) Nf mlim :
  let all := flat_map rows (seq 0 N) in let n := nfile_of (zlen all) Nf in let sizes := np_split (zlen all) n in
  (forall i, (i < N)%nat -> alloc_ok (alloc i)) -> new_from (e 0%nat) f bf nm d nmemb all Nf -> 1024 * w <= mlim ->
  leads N [] (fun i => pm_create_from_array (junk i) (e i) (alloc i) (world N) i (nbase i) bf nm d nmemb (rows i) Nf mlim) f (fun res g =>
    (forall i, (i < N)%nat -> exists b, res i = PyRet b /\ got alloc sizes all f i g b) /\
    (forall q x, ~ own_file base q -> fs_get f q = Some x -> fs_get g q = Some x)).
Proof.
  intros all n sizes Hal [] Hm. rewrite (Hme 0%nat HN) in *. fold base in nf_name, nf_free, nf_attr1. fold dt in nf_type, nf_dt, nf_chunk, nf_width, nf_rows. fold w in nf_chunk, nf_width, nf_rows.
  assert (Hi : 0 < itemsize me dt) by apply nf_dt. pose proof (zlen_nonneg all) as Hz. assert (Hw : 0 < w) by (unfold w; nia).
  destruct (nfile_bounds (zlen all) Nf Hz) as (Hn1 & Hn2 & Hn3).
  { destruct Nf as [k|]; [|exact nf_N]. destruct nf_N as (X1 & X2 & X3). split; [exact X1|]. split; [|exact X3]. intros X. rewrite (X2 X). reflexivity. }
  fold n in Hn1, Hn2, Hn3.
  destruct (np_layout (zlen all) n ltac:(lia) Hz Hn2 Hn3 ltac:(nia) ltac:(lia)) as (Hlay & Hll & Hsum). fold sizes in Hlay, Hll, Hsum.
  destruct (make_fresh (e 0%nat) f bf nm d nmemb sizes nf_name Hlay ltac:(lia) nf_made nf_free nf_attr1 ltac:(lia)) as (f1 & b1 & E1 & I1 & D1 & K1 & Ba1 & Da1 & Fr1); [rewrite (Hme 0%nat HN); exact nf_dt|].
  rewrite (Hme 0%nat HN) in I1. fold base dt in I1, Ba1, Da1, Fr1. fold w in I1. rewrite Hll in E1.
  pose (jk := fun _ _ _ _ : nat => x00). pose (nb := fun _ _ : nat => 0).
  destruct (choose_all (fun i b => big_block_open (e i) f1 base = Ret (Some b) /\ hinv (e i) base dt nmemb w (new_table sizes) f1 b /\ transferable me b /\ b_dirty b = false /\
     forall j, (j < length sizes)%nat -> nth j (b_fchecksum b) 0 = 0)) as (bo & HB).
  { intros i Hi0. destruct (open_ready N me jk nb e base dt nmemb w HN Hme nf_name nf_type nf_items Hwc Hnb (new_table sizes) (fun _ => 0) f1 b1 (e i) (Hme i Hi0) I1 D1 Ba1) as (b2 & O1 & O2 & O3 & O4 & O5).
    exists b2. split; [exact O1|]. split; [exact O2|]. split; [exact O3|]. split; [exact O4|]. intros j Hj. rewrite O5 by exact Hj. rewrite K1. apply nth_repeat0_z. }
  destruct (fresh_handles sizes f1 b1 bo I1 D1 K1 Ba1 Da1) as [C0 T0]; [intros i Hi0; apply (HB i Hi0)|].
  set (len := fun i => zlen (rows i)).
  assert (Htot : zsum (map len (seq 0 N)) = zlen all) by (unfold all; rewrite zlen_rows; reflexivity).
  unfold pm_create_from_array. cbv zeta.
  apply leads_does with (fun l res f' => l = [] /\ f' = f /\ forall i, res i = zlen all).
  { apply (does_allreduce N) with (z := len) (r := fun _ => zlen all); [apply world_all; exact HN| |auto].
    intros i Hi0 _. cbn [c_mem world reduce1]. rewrite Htot. unfold in_range. replace ((- 2 ^ 63 <=? zlen all) && (zlen all <? 2 ^ 63)) with true by lia. reflexivity. }
  intros l sz f' (-> & -> & Esz). cbn [app].
  apply leads_ext with (fun i => mbind (allgather (world N) CLong (len i)) (fun lens => pm_bind (pm_create (e i) (world N) i bf nm d nmemb (zlen all) n) (fun b =>
     mbind (pm_chunks (e i) (alloc i) b d nmemb (rows i) (zsum (firstn i lens)) 0 (py_itemlimit mlim w) (S (length (rows i)))) (fun rb =>
     let '(r, b) := rb in pm_bind (pm_flush (junk i) (e i) (world N) i (nbase i) b) (fun _ => match r with PyRaise x => mret (PyRaise x) | PyRet _ => pm_open (e i) (world N) bf nm end))))).
  { intros i Hi0. rewrite (Esz i), (Hme i Hi0), (rank_world N HN) by exact Hi0. fold dt. fold w.
    change (32 * 1024 * 1024) with 33554432. replace (zlen all + 33554432 - 1) with (zlen all + 33554431) by lia.
    change (match Nf with Some k => k | None => (zlen all + 33554431) / 33554432 end) with n.
    assert (0 < py_itemlimit mlim w). { unfold py_itemlimit. assert (1024 <= mlim / w) by (apply Z.div_le_lower_bound; lia). lia. }
    replace (py_itemlimit mlim w =? 0) with false by lia. replace (py_itemlimit mlim w <? 0) with false by lia. reflexivity. }
  apply (lead_allgather N HN eq (@eq_refl _) (@eq_trans _) (@eq_sym _)); [apply good_nil|]. intros g <-. cbv beta.
  unfold pm_bind at 1. eapply leads_bind; [apply (lead_pycreate (zlen all) n f f1 b1 bo); auto; [lia|apply I1|intros i Hi0; apply (HB i Hi0)]|]. cbv beta. intros res g (-> & R).
  apply leads_ext with (fun i => mbind (pm_chunks (e i) (alloc i) (bo i) d nmemb (rows i) (before len i) 0 (py_itemlimit mlim w) (S (length (rows i)))) (fun rb =>
     let '(r, b) := rb in pm_bind (pm_flush (junk i) (e i) (world N) i (nbase i) b) (fun _ => match r with PyRaise x => mret (PyRaise x) | PyRet _ => pm_open (e i) (world N) bf nm end))).
  { intros i Hi0. rewrite (R i Hi0). replace (zsum (firstn i (map len (seq 0 N)))) with (before len i); [reflexivity|]. unfold before. rewrite firstn_map. do 2 f_equal.
    replace N with (i + (N - i))%nat by lia. rewrite seq_app, firstn_app, seq_length, Nat.sub_diag. cbn [firstn]. rewrite app_nil_r. symmetry. apply firstn_all2. rewrite seq_length. lia. }
  assert (HF : forall i, (i < N)%nat -> Forall (fun v => length v = Z.to_nat w) (rows i)).
  { intros i Hi0. apply Forall_forall. intros v Hv. rewrite Forall_forall in nf_rows. apply nf_rows. apply in_flat_map. exists i. split; [apply in_seq; lia|exact Hv]. }
  apply leads_does with (all_put me e base dt nmemb sizes rows bo f1 N).
  { apply (chunks_all N me e base dt nmemb sizes HN Hme nf_items Hwc nf_width nf_dt d rows alloc); auto.
    - unfold py_itemlimit. assert (1024 <= mlim / w) by (apply Z.div_le_lower_bound; lia). lia.
    - fold len. unfold total. rewrite Htot, Hsum. lia.
    - intros i Hi0. destruct (HB i Hi0) as (_ & I & _). constructor; [apply I|apply I|apply I|]. rewrite (Hme i Hi0). apply I.
    - apply I1. }
  intros l res1 f2 AP. pose proof AP as [A1 A2 A3]. cbn [app].
  destruct (choose_all (fun i b' => res1 i = (PyRet tt, b') /\ ours (e i) base dt nmemb sizes b' /\ like (bo i) b' /\ b_fchecksum b' = add_sums (b_fchecksum (bo i)) sizes (before (fun i => zlen (rows i)) i) (rows i)) A3) as (b' & Hb').
  apply leads_ext with (fun i => pm_bind (pm_flush (junk i) (e i) (world N) i (nbase i) (b' i)) (fun _ => pm_open (e i) (world N) bf nm)).
  { intros i Hi0. rewrite (proj1 (Hb' i Hi0)). reflexivity. }
  set (T := with_rows (new_table sizes) 0 all).
  assert (CT : forall g, fs_eq f2 g -> cinv T g b' /\ tracked T g b').
  { intros g Eg. apply (put_inv N me e base dt nmemb HN Hme Hwc (new_table sizes) f1 g rows bo b'); auto.
    - fold all. unfold t_size. cbn [new_table t_sizes]. lia.
    - intros p. rewrite <- Eg. apply A1.
    - intros i Hi0. apply (Hb' i Hi0). }
  unfold pm_bind. eapply leads_bind.
  { apply (lead_pyflush N me e dt nmemb HN Hme Hwc junk nbase l b' f2 (fun g h b2 => bare base h /\ (exists v, saved e base dt nmemb w T h v) /\ frames base g h)).
    - eapply all_put_good; [..|exact AP]; auto; [apply Hlay|lia].
    - intros i Hi0. destruct (Hb' i Hi0) as (_ & [_ _ _ W] & _). destruct (Hb' 0%nat HN) as (_ & [_ _ _ W0] & _).
      pose proof (wb_layout _ _ _ _ W) as L. pose proof (wb_layout _ _ _ _ W0) as L0. rewrite (hl_Nfile _ _ L), (hl_Nfile _ _ L0). split; [reflexivity|]. unfold zlen. rewrite (hl_cks _ _ L). lia.
    - destruct (Hb' 0%nat HN) as (_ & [_ _ _ W0] & _). rewrite (hl_Nfile _ _ (wb_layout _ _ _ _ W0)). apply zlen_nonneg.
    - intros g Eg. destruct (CT g Eg) as [CI TR].
      destruct (flush_ready N me jk nb e base dt nmemb w HN Hme nf_items Hwc T g b' CI) as (h & ts & Ef & (v & Iv & Dv) & Bh & Tr & Hd & Hdf & Hcl).
      exists h, (set_bdirty (merged N b') false). split; [exact Ef|]. split; [exact Tr|]. split; [exact Bh|]. split.
      + destruct (flushed N me jk nb e base dt nmemb w HN Hme Hwc T g h b' CI TR) as (v2 & S2 & _); [|exact Hdf|exact Hcl|exists v2; exact S2].
        destruct (existsb (fun i => b_dirty (b' i)) (seq 0 N)) eqn:X.
        * apply existsb_exists in X. destruct X as (i & Hi0 & Di). apply in_seq in Hi0. exists (set_bdirty (merged N b') false), ts. split; [apply Hd; exists i; split; [lia|exact Di]|]. auto.
        * exists v, ts. split; [exact Iv|]. split; [exact Dv|]. intros (i & Hi0 & Di). exfalso. assert (Y : existsb (fun i => b_dirty (b' i)) (seq 0 N) = true) by (apply existsb_exists; exists i; split; [apply in_seq; lia|exact Di]). congruence.
      + pose proof (flush_frames _ _ _ _ _ _ Ef) as [X _]. replace (b_base (merged N b')) with base in X; [exact X|]. symmetry. apply (ci_base _ _ _ _ _ _ _ _ _ _ CI 0%nat HN). }
  cbv beta. intros res2 h (g & b2 & Eg & (Bh & (v & (ts & Iv) & Dv & Sv) & Fr) & R2).
  apply leads_ext with (fun i => pm_open (e i) (world N) bf nm). { intros i Hi0. destruct (R2 i Hi0) as (b3 & ->). reflexivity. }
  destruct (choose_all (fun i b => big_block_open (e i) h base = Ret (Some b) /\ hinv (e i) base dt nmemb w (resum T ts) h b /\
     forall j, (j < length sizes)%nat -> nth j (b_fchecksum b) 0 = nth j (b_fchecksum v) 0)) as (bz & HZ).
  { intros i Hi0. destruct (open_ready N me jk nb e base dt nmemb w HN Hme nf_name nf_type nf_items Hwc Hnb T ts h v (e i) (Hme i Hi0) Iv Dv Bh) as (b4 & O1 & O2 & O3 & O4 & O5).
    exists b4. split; [exact O1|]. split; [exact O2|]. exact O5. }
  eapply leads_mono; [|apply (lead_pyopen N HN [] e bf nm h bz (good_nil _))]; [|intros i Hi0; apply (HZ i Hi0)].
  cbv beta. intros res3 h' (-> & R3). split.
  - intros i Hi0. exists (bz i). split; [apply R3; exact Hi0|]. destruct (HZ i Hi0) as (_ & Iz & Sz).
    destruct (hinv_size _ _ _ _ _ _ _ _ Iz) as (Es & Ed & En & HLy). cbn [resum T with_rows new_table t_sizes] in HLy.
    split; [rewrite Es; unfold t_size; cbn [resum T with_rows new_table t_sizes]; exact Hsum|]. split; [exact Ed|]. split; [exact En|]. split; [apply HLy|]. split.
    + assert (Hsh : shows_all w (resum T ts) all).
      { split; [unfold t_size; cbn [resum T with_rows new_table t_sizes]; lia|]. split; [exact nf_rows|]. intros r x Hr. left. cbn [resum T with_rows t_row].
        assert (Hr' : (r < length all)%nat) by (apply nth_error_Some; congruence). replace ((0 <=? Z.of_nat r) && (Z.of_nat r <? 0 + zlen all)) with true by (unfold zlen; lia).
        rewrite Z.sub_0_r, Nat2Z.id. exact Hr. }
      assert (Hdti : dt_ok (e_me (e i)) dt) by (rewrite (Hme i Hi0); exact nf_dt).
      assert (Hwi : itemsize (e_me (e i)) dt * nmemb <= e_chunk (e i)) by (rewrite (Hme i Hi0); apply Hwc; exact Hi0).
      assert (Hw3 : itemsize (e_me (e i)) dt * nmemb < 2 ^ 31) by (rewrite (Hme i Hi0); exact nf_width).
      pose proof (get_all (e i) base dt nmemb nf_name nf_type nf_items Hwi Hw3 Hdti (alloc i) (Hal i Hi0) (resum T ts) h (bz i) all) as GA. rewrite (Hme i Hi0) in GA.
      apply GA; [exact Iz|exact Hsh|]. unfold t_size. cbn [resum T with_rows new_table t_sizes]. lia.
    + intros j c Hj Hc. rewrite Sz by exact Hj. apply Sv; [exact Hj|exact Hc].
  - intros q x Hq Hx. rewrite Fr by exact Hq. rewrite <- Eg, A1. rewrite put_rows_frame_exact; [apply Fr1; auto|]. intros r j k Hr Hh ->. apply Hq. right. right. exists (Z.of_nat j). split; [lia|reflexivity].
Qed.
Lemma from_wide (junk : nat -> nat -> nat -> byte) (nbase : nat -> Z) (alloc : nat -> Z -> Z * mem) f (rows : nat -> list bytes) Nf mlim :
  let all := flat_map rows (seq 0 N) in let n := nfile_of (zlen all) Nf in let sizes := np_split (zlen all) n in
  (forall i, (i < N)%nat -> alloc_ok (alloc i)) -> new_from (e 0%nat) f bf nm d nmemb all Nf -> 0 <= mlim < 1024 * w ->
  leads N [] (fun i => pm_create_from_array (junk i) (e i) (alloc i) (world N) i (nbase i) bf nm d nmemb (rows i) Nf mlim) f (fun res g =>
    (forall i, (i < N)%nat -> res i = PyRaise ValueError) /\
    forall i, (i < N)%nat -> exists b, big_file_open_block (e i) g bf nm = Ret (Some b) /\ b_size b = zlen all /\
      (all <> [] -> py_getitem (e i) (alloc i) g b IEllipsis = Ret (PyRaise BigError))).
Proof.
  intros all n sizes Hal [] Hm. rewrite (Hme 0%nat HN) in *. fold base in nf_name, nf_free, nf_attr1. fold dt in nf_type, nf_dt, nf_chunk, nf_width, nf_rows. fold w in nf_chunk, nf_width, nf_rows.
  assert (Hi : 0 < itemsize me dt) by apply nf_dt. pose proof (zlen_nonneg all) as Hz. assert (Hw : 0 < w) by (unfold w; nia).
  destruct (nfile_bounds (zlen all) Nf Hz) as (Hn1 & Hn2 & Hn3).
  { destruct Nf as [k|]; [|exact nf_N]. destruct nf_N as (X1 & X2 & X3). split; [exact X1|]. split; [|exact X3]. intros X. rewrite (X2 X). reflexivity. }
  fold n in Hn1, Hn2, Hn3.
  destruct (np_layout (zlen all) n ltac:(lia) Hz Hn2 Hn3 ltac:(nia) ltac:(lia)) as (Hlay & Hll & Hsum). fold sizes in Hlay, Hll, Hsum.
  destruct (make_fresh (e 0%nat) f bf nm d nmemb sizes nf_name Hlay ltac:(lia) nf_made nf_free nf_attr1 ltac:(lia)) as (f1 & b1 & E1 & I1 & D1 & K1 & Ba1 & Da1 & Fr1); [rewrite (Hme 0%nat HN); exact nf_dt|].
  rewrite (Hme 0%nat HN) in I1. fold base dt in I1, Ba1, Da1, Fr1. fold w in I1. rewrite Hll in E1.
  pose (jk := fun _ _ _ _ : nat => x00). pose (nb := fun _ _ : nat => 0).
  destruct (choose_all (fun i b => big_block_open (e i) f1 base = Ret (Some b) /\ hinv (e i) base dt nmemb w (new_table sizes) f1 b /\ transferable me b /\ b_dirty b = false /\
     forall j, (j < length sizes)%nat -> nth j (b_fchecksum b) 0 = 0)) as (bo & HB).
  { intros i Hi0. destruct (open_ready N me jk nb e base dt nmemb w HN Hme nf_name nf_type nf_items Hwc Hnb (new_table sizes) (fun _ => 0) f1 b1 (e i) (Hme i Hi0) I1 D1 Ba1) as (b2 & O1 & O2 & O3 & O4 & O5).
    exists b2. split; [exact O1|]. split; [exact O2|]. split; [exact O3|]. split; [exact O4|]. intros j Hj. rewrite O5 by exact Hj. rewrite K1. apply nth_repeat0_z. }
  destruct (fresh_handles sizes f1 b1 bo I1 D1 K1 Ba1 Da1) as [C0 T0]; [intros i Hi0; apply (HB i Hi0)|].
  set (len := fun i => zlen (rows i)).
  assert (Htot : zsum (map len (seq 0 N)) = zlen all) by (unfold all; rewrite zlen_rows; reflexivity).
  unfold pm_create_from_array. cbv zeta.
  apply leads_does with (fun l res f' => l = [] /\ f' = f /\ forall i, res i = zlen all).
  { apply (does_allreduce N) with (z := len) (r := fun _ => zlen all); [apply world_all; exact HN| |auto].
    intros i Hi0 _. cbn [c_mem world reduce1]. rewrite Htot. unfold in_range. replace ((- 2 ^ 63 <=? zlen all) && (zlen all <? 2 ^ 63)) with true by lia. reflexivity. }
  intros l sz f' (-> & -> & Esz). cbn [app].
  assert (Hl0 : py_itemlimit mlim w = 0).
  { unfold py_itemlimit. assert (0 <= mlim / w < 1024) by (split; [apply Z.div_pos; lia|apply Z.div_lt_upper_bound; lia]). lia. }
  apply leads_ext with (fun i => mbind (allgather (world N) CLong (len i)) (fun lens => pm_bind (pm_create (e i) (world N) i bf nm d nmemb (zlen all) n) (fun b =>
     pm_bind (pm_flush (junk i) (e i) (world N) i (nbase i) b) (fun _ => mret (PyRaise ValueError))))).
  { intros i Hi0. rewrite (Esz i), (Hme i Hi0), (rank_world N HN) by exact Hi0. fold dt. fold w.
    change (32 * 1024 * 1024) with 33554432. replace (zlen all + 33554432 - 1) with (zlen all + 33554431) by lia.
    change (match Nf with Some k => k | None => (zlen all + 33554431) / 33554432 end) with n. rewrite Hl0. reflexivity. }
  apply (lead_allgather N HN eq (@eq_refl _) (@eq_trans _) (@eq_sym _)); [apply good_nil|]. intros g <-. cbv beta.
  unfold pm_bind at 1. eapply leads_bind; [apply (lead_pycreate (zlen all) n f f1 b1 bo); auto; [lia|apply I1|intros i Hi0; apply (HB i Hi0)]|]. cbv beta. intros res g (-> & R).
  apply leads_ext with (fun i => pm_bind (pm_flush (junk i) (e i) (world N) i (nbase i) (bo i)) (fun _ => mret (PyRaise ValueError))); [intros i Hi0; rewrite (R i Hi0); reflexivity|].
  unfold pm_bind. eapply leads_bind.
  { apply (lead_pyflush N me e dt nmemb HN Hme Hwc junk nbase [] bo f1 (fun g h b2 => fs_eq f1 g -> fs_eq f1 h)).
    - apply good_nil.
    - intros i Hi0. destruct (HB i Hi0) as (_ & Ib & _). destruct (HB 0%nat HN) as (_ & Ib0 & _).
      pose proof (wb_layout _ _ _ _ (hv_wb _ _ _ _ _ _ _ _ Ib)) as L. pose proof (wb_layout _ _ _ _ (hv_wb _ _ _ _ _ _ _ _ Ib0)) as L0.
      rewrite (hl_Nfile _ _ L), (hl_Nfile _ _ L0). split; [reflexivity|]. unfold zlen. rewrite (hl_cks _ _ L). lia.
    - destruct (HB 0%nat HN) as (_ & Ib0 & _). rewrite (hl_Nfile _ _ (wb_layout _ _ _ _ (hv_wb _ _ _ _ _ _ _ _ Ib0))). apply zlen_nonneg.
    - intros g Eg. assert (CI : cinv (new_table sizes) g bo).
      { destruct C0. constructor; auto.
        - destruct ci_v as (v & ts & Iv & Dv). exists v, ts. split; [|exact Dv]. eapply hinv_same; [|exact Iv]. split; [symmetry; apply Eg|intros p _; symmetry; apply Eg].
        - apply (bare_frame base f1); [exact ci_bare|intros p _; symmetry; apply Eg]. }
      destruct (flush_ready N me jk nb e base dt nmemb w HN Hme nf_items Hwc _ g bo CI) as (h & ts & Ef & _ & _ & Tr & _ & _ & Hcl).
      exists h, (set_bdirty (merged N bo) false). split; [exact Ef|]. split; [exact Tr|]. intros _. rewrite Hcl by (intros i Hi0; apply (HB i Hi0)). exact Eg. }
  cbv beta. intros res2 h (g & b2 & Eg & K & R2). specialize (K Eg).
  apply leads_ext with (fun i => mret (PyRaise ValueError)). { intros i Hi0. destruct (R2 i Hi0) as (b3 & ->). reflexivity. }
  apply leads_ret. split; [reflexivity|]. intros i Hi0.
  assert (Ih : hinv (e 0%nat) base dt nmemb w (new_table sizes) h b1) by (eapply hinv_same; [|exact I1]; split; [symmetry; apply K|intros p _; symmetry; apply K]).
  assert (Bh : bare base h) by (apply (bare_frame base f1); [exact Ba1|intros p _; symmetry; apply K]).
  destruct (open_ready N me jk nb e base dt nmemb w HN Hme nf_name nf_type nf_items Hwc Hnb (new_table sizes) (fun _ => 0) h b1 (e i) (Hme i Hi0) Ih D1 Bh) as (b4 & O1 & O2 & _).
  destruct (hinv_size _ _ _ _ _ _ _ _ O2) as (Es & _ & _ & _). exists b4. split; [exact O1|]. split; [rewrite Es; exact Hsum|]. intros Hne.
  assert (Hdti : dt_ok (e_me (e i)) dt) by (rewrite (Hme i Hi0); exact nf_dt).
  assert (Hwi : itemsize (e_me (e i)) dt * nmemb <= e_chunk (e i)) by (rewrite (Hme i Hi0); apply Hwc; exact Hi0).
  assert (Hw3 : itemsize (e_me (e i)) dt * nmemb < 2 ^ 31) by (rewrite (Hme i Hi0); exact nf_width).
  pose proof (get_absent (e i) base dt nmemb nf_name nf_type nf_items Hwi Hw3 Hdti (alloc i) (Hal i Hi0) (new_table sizes) h b4 None None None) as GA. rewrite (Hme i Hi0) in GA.
  assert (Hts : t_size (new_table sizes) = zlen all) by exact Hsum.
  apply GA; [exact O2|rewrite Hts; lia|auto|]. exists 0.
  assert (0 < zlen all) by (destruct all; [congruence|rewrite zlen_cons; pose proof (zlen_nonneg all); lia]). split; [cbn [bound]; lia|]. split; [reflexivity|]. intros; reflexivity.
Qed.
End Make.

(* ----------------------------------------------------- names that differ *)
Section Names.
Variables (N : nat) (e : nat -> env) (bf d : bytes) (nm : nat -> bytes) (nmemb : Z).
Hypothesis HN : (0 < N)%nat.
Lemma not_same i j k : (i < N)%nat -> (j < N)%nat -> nm i <> nm j -> forallb (Z.eqb (name_code (nm k))) (map (fun i => name_code (nm i)) (seq 0 N)) = false.
Proof.
  intros Hi Hj Hne. apply not_true_is_false. intros H. rewrite forallb_forall in H.
  assert (G : forall x, (x < N)%nat -> nm x = nm k).
  { intros x Hx. symmetry. apply (name_code_inj N ltac:(lia)). apply Z.eqb_eq. apply H. apply in_map_iff. exists x. split; [reflexivity|apply in_seq; lia]. }
  apply Hne. rewrite (G i Hi), (G j Hj). reflexivity.
Qed.
Lemma lead_differ (junk : nat -> nat -> nat -> byte) (nbase : nat -> Z) (alloc : nat -> Z -> Z * mem) f (rows : nat -> list bytes) (Nf : nat -> option Z) (mlim : nat -> Z) :
  total N (fun i => zlen (rows i)) < 2 ^ 63 -> (exists i j, (i < N)%nat /\ (j < N)%nat /\ nm i <> nm j) ->
  leads N [] (fun i => pm_create_from_array (junk i) (e i) (alloc i) (world N) i (nbase i) bf (nm i) d nmemb (rows i) (Nf i) (mlim i)) f (fun res g =>
    g = f /\ forall i, (i < N)%nat -> res i = PyRaise BigError).
Proof.
  intros Hs (i0 & j0 & Hi0 & Hj0 & Hne). unfold pm_create_from_array. cbv zeta. set (len := fun i => zlen (rows i)) in *.
  assert (H0 : 0 <= total N len) by (apply (before_le len (fun i => zlen_nonneg (rows i)) 0 N); lia).
  apply leads_does with (fun l res f' => l = [] /\ f' = f).
  { apply (does_allreduce N) with (z := len) (r := fun _ => total N len); [apply world_all; exact HN| |auto].
    intros i Hi _. cbn [c_mem world reduce1]. fold (total N len). unfold in_range. replace ((- 2 ^ 63 <=? total N len) && (total N len <? 2 ^ 63)) with true by lia. reflexivity. }
  intros l sz f' (-> & ->). cbn [app].
  apply (lead_allgather N HN eq (@eq_refl _) (@eq_trans _) (@eq_sym _) [] CLong len); [apply good_nil|]. intros g <-. cbv beta.
  unfold pm_bind at 1. apply leads_bind with (fun res g => g = f /\ forall i, (i < N)%nat -> res i = PyRaise BigError).
  - unfold pm_create, pm_bind at 1. apply leads_bind with (fun res g => g = f /\ forall i, (i < N)%nat -> res i = PyRaise BigError).
    + unfold pm_create_column. apply (lead_unique N HN eq (@eq_refl _) (@eq_trans _) (@eq_sym _)); [apply good_nil|]. intros g <-. cbv beta.
      apply leads_ext with (fun i => mret (PyRaise BigError)); [|apply leads_ret; auto].
      intros i Hi. rewrite (not_same i0 j0 i Hi0 Hj0 Hne). reflexivity.
    + intros res g (-> & R). apply leads_ext with (fun i => mret (PyRaise BigError)); [intros i Hi; rewrite (R i Hi); reflexivity|apply leads_ret; auto].
  - intros res g (-> & R). apply leads_ext with (fun i => mret (PyRaise BigError)); [intros i Hi; rewrite (R i Hi); reflexivity|apply leads_ret; auto].
Qed.
End Names.

(* -------------------------------------------- rank 0 cannot create the block *)
Section Hang.
Variables (N : nat) (e : nat -> env) (bf nm d : bytes) (nmemb size Nfile : Z) (f : fs).
Hypothesis HN : (0 < N)%nat.
Let mine (i : nat) := pm_create (e i) (world N) i bf nm d nmemb size Nfile.
Let X := KAllgather CLong (name_code nm).
Let W := world N.
Hypothesis Hroot : Nfile < 0 \/ 0 < Nfile /\ exists f1, big_file_create_block (e 0%nat) f bf nm (Some d) nmemb Nfile (np_split size Nfile) = Ret (f1, None).

Lemma first_call i : (i < N)%nat -> exists k, whole (mine i) = Coll W X k /\
  let r := VZs (map (fun _ => name_code nm) (seq 0 N)) in
  if (i =? 0)%nat then (exists x, k r = Done x) \/ (exists f1 k2, k r = Io (op_create_block (e 0%nat) bf nm d nmemb Nfile (np_split size Nfile)) k2 /\
       op_create_block (e 0%nat) bf nm d nmemb Nfile (np_split size Nfile) f = Ret (VNone, f1) /\ exists x, k2 VNone = Done x)
  else exists k2, k r = Coll W X k2.
Proof.
  intros Hi. unfold mine. eexists. split; [reflexivity|]. cbv zeta beta. cbn [many]. unfold mret, mbind at 1, mbind at 1. cbv beta iota.
  rewrite all_same. cbn [negb]. cbv iota. rewrite (rank_world N ltac:(lia)) by exact Hi. destruct (Nat.eqb_spec i 0) as [->|Hne].
  - unfold pm_create_root. destruct Hroot as [Hn|(Hn & f1 & E)].
    + left. replace (Nfile <? 0) with true by lia. eexists. reflexivity.
    + right. exists f1. replace (Nfile <? 0) with false by lia. replace ((Nfile =? 0) && negb (size =? 0)) with false by lia. eexists. split; [reflexivity|].
      split; [unfold op_create_block, pack_op; rewrite E; reflexivity|]. eexists. reflexivity.
  - eexists. reflexivity.
Qed.

Definition waits (s : config (pyres block)) (i : nat) : Prop :=
  g_posts s W i = if g_wait s i then [X] else [].
Record inv (s : config (pyres block)) : Prop := {
  in_root : g_ps s 0%nat = whole (mine 0%nat) /\ waits s 0%nat /\ g_fs s = f \/
            (exists f1 k2, g_ps s 0%nat = Io (op_create_block (e 0%nat) bf nm d nmemb Nfile (np_split size Nfile)) k2 /\ g_posts s W 0%nat = [X] /\ g_fs s = f /\
               op_create_block (e 0%nat) bf nm d nmemb Nfile (np_split size Nfile) f = Ret (VNone, f1) /\ exists x, k2 VNone = Done x) \/
            (exists x, g_ps s 0%nat = Done x) /\ g_posts s W 0%nat = [X];
  in_rest : forall i, (0 < i < N)%nat -> g_ps s i = whole (mine i) /\ waits s i \/
            (exists k2, g_ps s i = Coll W X k2) /\ g_posts s W i = if g_wait s i then [X; X] else [X]
}.

(* The first call of everybody is the same. *)
Lemma first_post s j : inv s -> (j < N)%nat -> nth_error (g_posts s W j) 0 = None \/ nth_error (g_posts s W j) 0 = Some X.
Proof.
  intros [H0 H1] Hj. destruct (Nat.eq_dec j 0) as [->|Hne].
  - destruct H0 as [(_ & E & _)|[(f1 & k2 & _ & E & _)|(_ & E)]]; unfold waits in *; rewrite E; try (destruct (g_wait s 0%nat)); auto.
  - destruct (H1 j ltac:(lia)) as [(_ & E)|(_ & E)]; unfold waits in *; rewrite E; destruct (g_wait s j); auto.
Qed.
Lemma first_reply s i r : inv s -> (i < N)%nat -> reply W 0 (fun j => nth_error (g_posts s W j) 0) i = Some r -> r = VZs (map (fun _ => name_code nm) (seq 0 N)).
Proof.
  intros I Hi H. assert (Ei : nth_error (g_posts s W i) 0 = Some X).
  { destruct (first_post s i I Hi) as [E|E]; [|exact E]. unfold reply in H. rewrite E in H. discriminate H. }
  assert (Hall : forall j, In j (seq 0 N) -> nth_error (g_posts s W j) 0 = Some X).
  { intros j Hj. destruct (first_post s j I) as [E|E]; [apply in_seq in Hj; lia| |exact E].
    exfalso. exact (reply_all W 0 (fun j => nth_error (g_posts s W j) 0) i X r j Ei Logic.I H Hj E). }
  unfold reply in H. rewrite Ei in H. unfold X at 1 in H. cbv iota in H.
  replace (gather sel_allgather (c_mem W) (fun j => nth_error (g_posts s W j) 0)) with (Some (map (fun _ : nat => name_code nm) (seq 0 N))) in H; [congruence|].
  symmetry. unfold gather. rewrite (map_ext_in _ (fun _ => Some (name_code nm))); [apply all_some_map|]. intros j Hj. rewrite (Hall j Hj). reflexivity.
Qed.
(* Nobody gets out of the second call. *)
Lemma second_reply s i : inv s -> (0 < i < N)%nat -> g_posts s W i = [X; X] -> reply W 1 (fun j => nth_error (g_posts s W j) 1) i = None.
Proof.
  intros I Hi E. destruct (reply W 1 _ i) as [r|] eqn:H; [exfalso|reflexivity].
  apply (reply_all W 1 (fun j => nth_error (g_posts s W j) 1) i X r 0%nat); [rewrite E; reflexivity|exact Logic.I|exact H|cbn [c_mem W world]; apply in_seq; lia|].
  destruct (in_root s I) as [(_ & E0 & _)|[(f1 & k2 & _ & E0 & _)|(_ & E0)]]; unfold waits in *; rewrite E0; try destruct (g_wait s 0%nat); reflexivity.
Qed.

Lemma inv_step s i s' : inv s -> step N s i s' -> inv s'.
Proof.
  intros I H. pose proof I as [H0 H1].
  assert (Keep : others i s s' -> g_fs s' = g_fs s \/ i = 0%nat -> forall j, j <> i -> g_ps s' j = g_ps s j /\ g_wait s' j = g_wait s j /\ g_posts s' W j = g_posts s W j).
  { intros (O1 & O2 & O3) _ j Hj. auto. }
  inversion H as [c x k Hi Ep Ew Hin O P W1 F Po Po' | c x k n r Hi Ep Ew Hin L R O P W1 F Po | o k r f' Hi Ep Ew Eo O P W1 F Po].
  - (* a rank starts a call *)
    specialize (Keep O (or_introl F)). constructor.
    + destruct (Nat.eq_dec i 0) as [->|Hne].
      * destruct H0 as [(E & E2 & E3)|[(f1 & k2 & E & _)|((y & E) & _)]]; try congruence.
        left. split; [congruence|]. split; [|congruence]. unfold waits in *. rewrite W1. destruct (first_call 0 Hi) as (k0 & Ek & _). rewrite E, Ek in Ep. injection Ep as <- <- _. rewrite Po, E2, Ew. reflexivity.
      * destruct (Keep 0%nat ltac:(lia)) as (K1 & K2 & K3). unfold waits in *. rewrite K1, K2, K3, F. exact H0.
    + intros j Hj. destruct (Nat.eq_dec j i) as [->|Hne].
      * destruct (H1 i Hj) as [(E & E2)|((k2 & E) & E2)].
        -- left. split; [congruence|]. unfold waits in *. rewrite W1. destruct (first_call i Hi) as (k0 & Ek & _). rewrite E, Ek in Ep. injection Ep as <- <- _. rewrite Po, E2, Ew. reflexivity.
        -- right. split; [exists k2; congruence|]. rewrite W1. rewrite E in Ep. injection Ep as <- <- _. rewrite Po, E2, Ew. reflexivity.
      * destruct (Keep j Hne) as (K1 & K2 & K3). unfold waits in *. rewrite K1, K2, K3. apply H1. exact Hj.
  - (* a rank leaves a call *)
    specialize (Keep O (or_introl F)). constructor.
    + destruct (Nat.eq_dec i 0) as [->|Hne].
      * destruct H0 as [(E & E2 & E3)|[(f1 & k2 & E & _)|((y & E) & _)]]; try congruence.
        destruct (first_call 0 Hi) as (k0 & Ek & Hk). rewrite E, Ek in Ep. injection Ep as <- <- ->. unfold waits in E2. rewrite Ew in E2. rewrite E2 in L. injection L as <-.
        pose proof (first_reply s 0 r I Hi R) as ->. cbv zeta in Hk. change (0 =? 0)%nat with true in Hk. cbv iota in Hk. right.
        destruct Hk as [(y & Ey)|(f1 & k2 & Ey & Eo & Hy)].
        -- right. split; [exists y; congruence|]. rewrite Po. exact E2.
        -- left. exists f1, k2. split; [congruence|]. split; [rewrite Po; exact E2|]. split; [congruence|]. auto.
      * destruct (Keep 0%nat ltac:(lia)) as (K1 & K2 & K3). unfold waits in *. rewrite K1, K2, K3, F. exact H0.
    + intros j Hj. destruct (Nat.eq_dec j i) as [->|Hne].
      * destruct (H1 i Hj) as [(E & E2)|((k2 & E) & E2)].
        -- destruct (first_call i Hi) as (k0 & Ek & Hk). rewrite E, Ek in Ep. injection Ep as <- <- ->. unfold waits in E2. rewrite Ew in E2. rewrite E2 in L. injection L as <-.
           pose proof (first_reply s i r I Hi R) as ->. cbv zeta in Hk. replace (i =? 0)%nat with false in Hk by (symmetry; apply Nat.eqb_neq; lia). destruct Hk as (k2 & Ey).
           right. split; [exists k2; congruence|]. rewrite W1, Po. exact E2.
        -- rewrite E in Ep. injection Ep as <- <- _. rewrite Ew in E2. rewrite E2 in L. injection L as <-. rewrite (second_reply s i I Hj E2) in R. discriminate R.
      * destruct (Keep j Hne) as (K1 & K2 & K3). unfold waits in *. rewrite K1, K2, K3. apply H1. exact Hj.
  - (* a file operation *)
    destruct (Nat.eq_dec i 0) as [->|Hne].
    + specialize (Keep O (or_intror eq_refl)). constructor.
      * destruct H0 as [(E & _)|[(f1 & k2 & E & E2 & E3 & E4 & x & E5)|((y & E) & _)]].
        -- destruct (first_call 0 Hi) as (k0 & Ek & _). congruence.
        -- rewrite E in Ep. injection Ep as <- <-. rewrite E3, E4 in Eo. injection Eo as <- <-. right. right. split; [exists x; congruence|]. rewrite Po. exact E2.
        -- congruence.
      * intros j Hj. destruct (Keep j ltac:(lia)) as (K1 & K2 & K3). unfold waits in *. rewrite K1, K2, K3. apply H1. exact Hj.
    + exfalso. destruct (H1 i ltac:(lia)) as [(E & _)|((k2 & E) & _)]; [|congruence]. destruct (first_call i Hi) as (k0 & Ek & _). congruence.
Qed.

Lemma create_hangs s i x : (0 < i < N)%nat ->
  clos_refl_trans _ (fun s s' => exists j, step N s j s') (launch (fun i => whole (mine i)) f) s -> g_ps s i <> Done x.
Proof.
  intros Hi R. assert (I : inv s).
  { apply clos_rt_rtn1 in R. induction R as [|s1 s2 (j & St) _ IH]; [|eapply inv_step; eauto]. constructor; [left; repeat split|]. intros k Hk. left. repeat split. }
  intros E. destruct (in_rest s I i Hi) as [(E1 & _)|((k2 & E1) & _)]; [|congruence]. destruct (first_call i ltac:(lia)) as (k0 & Ek & _). congruence.
Qed.
End Hang.
