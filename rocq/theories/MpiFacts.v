(* Collective reads and writes under every schedule. *)
From Coq.Strings Require Import Byte String.
From Coq Require Import List ZArith Lia Bool ZifyBool ZifyNat.
From Verif Require Import Base BaseFacts Dtype Cast Array FS Fmt Attr Block Spec SeekFacts FSFacts ArrayFacts ConvFacts WriteFacts ReadFacts
  OpenFacts Par MpiSpec ParFacts SyncFacts VecFacts CollFacts Mpi SegFacts StepFacts HistSpec HistFacts AggFacts LoopFacts ThrFacts LeadFacts CallFacts KeepFacts.
Import ListNotations.
Open Scope Z_scope.
Ltac Zify.zify_post_hook ::= Z.div_mod_to_equations.

(* ------------------------------------------------ conversion at one rank *)
(* Elements the conversion is defined on, or no conversion at all. *)
Definition convertible_dec me sd dd : {convertible me sd dd} + {~ convertible me sd dd}.
Proof.
  unfold convertible. destruct (list_eq_dec Byte.byte_eq_dec (suffix dd) (suffix sd)) as [E|E]; [left; auto|].
  destruct (cast_table me (suffix dd) (suffix sd)) eqn:Ec; [left; right; discriminate|right; intros [H|H]; congruence].
Defined.

Lemma convert0_unsupported me dm di da sm si sa : it_arr di = da -> it_arr si = sa -> ~ convertible me (a_dtype sa) (a_dtype da) ->
  dtype_convert me dm di sm si 0 = Ret (-1, dm, di, sm, si).
Proof.
  intros Hd Hs Hc. unfold dtype_convert. rewrite !byte_swap0. replace (if native me (it_arr si) then Ret sm else Ret sm) with (@Ret mem sm) by (destruct (native _ _); reflexivity).
  cbn [bind]. unfold cast. rewrite Hd, Hs.
  destruct (bytes_eqb (suffix (a_dtype da)) (suffix (a_dtype sa))) eqn:E.
  { exfalso. apply Hc. left. apply bytes_eqb_eq. auto. }
  destruct (cast_table me (suffix (a_dtype da)) (suffix (a_dtype sa))) eqn:Ec.
  { exfalso. apply Hc. right. congruence. }
  reflexivity.
Qed.

Lemma src_after_none me um a : src_after me um um a 0 [].
Proof.
  unfold src_after. destruct (dt_native me (a_dtype a)); [reflexivity|]. split; [intros j v Hj; destruct j; discriminate|reflexivity].
Qed.

(* Into the buffer sent to the writer. *)
Lemma send_buffer e b sizes w a um n vs outs : wblock e b sizes w -> 0 <= n -> rank_source (e_me e) a um n (b_nmemb b) vs ->
  (convertible (e_me e) (a_dtype a) (b_dtype b) -> Forall2 (converts (e_me e) (a_dtype a) (b_dtype b)) vs outs) ->
  exists rc lb1 il' um1 ia' d,
    dtype_convert (e_me e) (fresh e (itemsize (e_me e) (b_dtype b) * b_nmemb b * n)) (iter_init (e_me e) (chunk_array (e_me e) b n)) um (iter_init (e_me e) a)
      (Z.to_nat (n * b_nmemb b)) = Ret (rc, lb1, il', um1, ia') /\ load lb1 0 (Z.to_nat (n * w)) = Some d /\ src_after (e_me e) um um1 a 0 vs /\
    (convertible (e_me e) (a_dtype a) (b_dtype b) -> d = concat outs) /\
    (~ convertible (e_me e) (a_dtype a) (b_dtype b) -> load (fresh e (w * n)) 0 (Z.to_nat (n * w)) = Some d).
Proof.
  intros HW Hn [[T1 T2 T3 T4 T5] Hl Hh Hd] HF. pose proof (wb_w _ _ _ _ HW) as Ew. pose proof (wb_nmemb _ _ _ _ HW) as Hnm. destruct (wb_dt _ _ _ _ HW) as [Hdn Hdw].
  set (isz := itemsize (e_me e) (b_dtype b)) in *. rewrite <- Ew.
  assert (FM : exists d, load (fresh e (w * n)) 0 (Z.to_nat (n * w)) = Some d).
  { destruct (load_some (fresh e (w * n)) 0 (Z.to_nat (n * w))) as (d & E); [|eauto]. intros k Hk. apply (fresh_mapped e (w * n)). clear -Hk Hn. nia. }
  destruct (convertible_dec (e_me e) (a_dtype a) (b_dtype b)) as [C|C].
  - specialize (HF C). destruct (Z.eq_dec n 0) as [->|Hn0].
    + assert (Ev : vs = []) by (destruct vs; [reflexivity|unfold zlen in Hl; simpl in Hl; lia]). subst vs. inversion HF; subst.
      destruct (convert0 (e_me e) (fresh e (isz * b_nmemb b * 0)) (iter_init (e_me e) (chunk_array (e_me e) b 0)) (chunk_array (e_me e) b 0) um (iter_init (e_me e) a) a) as (di' & si' & E & _); auto; try reflexivity; [discriminate|cbn [a_dtype chunk_array]; fold isz; lia|].
      exists 0, (fresh e (isz * b_nmemb b * 0)), di', um, si', []. replace (Z.to_nat (0 * b_nmemb b)) with O by lia. split; [exact E|]. split; [replace (Z.to_nat (0 * _)) with O by lia; reflexivity|]. split; [apply src_after_none|]. split; [reflexivity|]. intros; contradiction.
    + assert (Ha : array_ok a) by (apply T4; lia).
      destruct (convert_spec (e_me e) (fresh e (w * n)) (iter_init (e_me e) (chunk_array (e_me e) b n)) (chunk_array (e_me e) b n) um (iter_init (e_me e) a) a 0 0 vs outs) as (lb1 & il' & um1 & ia' & E & _ & _ & W & S); auto; try lia.
      { apply chunk_array_ok; lia. }
      { apply (wb_dt _ _ _ _ HW). }
      { apply iter_init_at. apply chunk_array_ok; lia. }
      { apply iter_init_at; auto. }
      { cbn [a_size chunk_array]. lia. }
      { cbn [a_dtype chunk_array]. apply chunk_mapped; fold isz; try lia. rewrite Z.mul_comm, <- Ew. apply fresh_mapped. }
      { cbn [a_dtype chunk_array]. apply chunk_disjoint; fold isz; lia. }
      assert (Lo : zlen outs = n * b_nmemb b) by (rewrite <- Hl; unfold zlen; rewrite (Forall2_length HF); reflexivity).
      exists 0, lb1, il', um1, ia', (concat outs). replace (Z.to_nat (n * b_nmemb b)) with (length vs) by (unfold zlen in Hl; lia).
      split; [exact E|]. split; [|split; [exact S|split; [reflexivity|intros; contradiction]]].
      replace (n * w) with (zlen outs * isz) by nia. apply (concat_load lb1 (elem_addr (chunk_array (e_me e) b n)) isz 0 outs 0); [lia| |].
      * intros j Hj. rewrite chunk_addr by lia. fold isz. lia.
      * destruct W as [W _]. exact W.
  - destruct FM as (d & FM). destruct (Z.eq_dec n 0) as [->|Hn0].
    + assert (Ev : vs = []) by (destruct vs; [reflexivity|unfold zlen in Hl; simpl in Hl; lia]). subst vs.
      eexists _, _, _, um, _, d. replace (Z.to_nat (0 * b_nmemb b)) with O by lia. split; [eapply convert0_unsupported; [reflexivity|reflexivity|exact C]|]. split; [exact FM|]. split; [apply src_after_none|]. split; [intros; contradiction|intros; exact FM].
    + assert (Ha : array_ok a) by (apply T4; lia).
      destruct (convert_unsupported (e_me e) (fresh e (w * n)) (iter_init (e_me e) (chunk_array (e_me e) b n)) (chunk_array (e_me e) b n) um (iter_init (e_me e) a) a 0 0 vs) as (um1 & E & S); auto; try lia.
      { apply chunk_array_ok; lia. }
      { apply iter_init_at. apply chunk_array_ok; lia. }
      { apply iter_init_at; auto. }
      eexists _, _, _, um1, _, d. replace (Z.to_nat (n * b_nmemb b)) with (length vs) by (unfold zlen in Hl; lia). split; [exact E|]. split; [exact FM|]. split; [exact S|]. split; [intros; contradiction|intros; exact FM].
Qed.

Lemma holds_of_load m addr w base vs : forall k, 0 <= w -> Forall (fun v => length v = Z.to_nat w) vs ->
  (forall j, k <= j < k + zlen vs -> addr j = base + j * w) ->
  load m (base + k * w) (Z.to_nat (zlen vs * w)) = Some (concat vs) -> holds m addr w k vs.
Proof.
  induction vs as [|v vs IH]; intros k Hw HF Ha HL.
  - intros j x Hj. destruct j; discriminate.
  - inversion HF; subst. rewrite zlen_cons in *. pose proof (zlen_nonneg vs).
    replace (Z.to_nat ((1 + zlen vs) * w)) with (Z.to_nat w + Z.to_nat (zlen vs * w))%nat in HL by nia. apply load_split in HL. destruct HL as [A B].
    cbn [concat] in A, B. rewrite <- H1 in A, B. rewrite firstn_app, Nat.sub_diag, firstn_all, firstn_O, app_nil_r in A. rewrite skipn_app, Nat.sub_diag, skipn_all in B. cbn [app skipn] in B.
    apply holds_cons_intro; [rewrite (Ha k) by lia; rewrite <- H1; exact A|]. apply IH; auto; [intros j Hj; apply Ha; lia|].
    rewrite H1 in B. replace (base + k * w + Z.of_nat (Z.to_nat w)) with (base + (k + 1) * w) in B by lia. exact B.
Qed.

(* Out of the buffer received from the reader. *)
Definition elems_of (e : env) (b : block) (n : Z) (d : bytes) : list bytes := group (Z.to_nat (itemsize (e_me e) (b_dtype b))) (Z.to_nat (n * b_nmemb b)) d.
Definition readable (e : env) (b : block) (a : array) (n : Z) (d : bytes) : Prop :=
  convertible (e_me e) (b_dtype b) (a_dtype a) -> exists outs, Forall2 (converts (e_me e) (b_dtype b) (a_dtype a)) (elems_of e b n d) outs.
Definition received (e : env) (b : block) (a : array) (um : mem) (n : Z) (d : bytes) (um' : mem) : Prop :=
  (convertible (e_me e) (b_dtype b) (a_dtype a) -> exists outs, Forall2 (converts (e_me e) (b_dtype b) (a_dtype a)) (elems_of e b n d) outs /\
     wrote um um' (elem_addr a) (itemsize (e_me e) (a_dtype a)) 0 outs) /\
  (~ convertible (e_me e) (b_dtype b) (a_dtype a) -> um' = um).

Lemma receive_buffer e b sizes w a um n d lb1 : wblock e b sizes w -> 0 <= n -> rank_target (e_me e) a um n (b_nmemb b) ->
  zlen d = n * w -> readable e b a n d -> load lb1 0 (Z.to_nat (n * w)) = Some d ->
  exists rc um' ia' lb' il',
    dtype_convert (e_me e) um (iter_init (e_me e) a) lb1 (iter_init (e_me e) (chunk_array (e_me e) b n)) (Z.to_nat (n * b_nmemb b)) = Ret (rc, um', ia', lb', il') /\ received e b a um n d um'.
Proof.
  intros HW Hn [[T1 T2 T3 T4 T5] Hm Hd] Hz HR HL. pose proof (wb_w _ _ _ _ HW) as Ew. pose proof (wb_nmemb _ _ _ _ HW) as Hnm. destruct (wb_dt _ _ _ _ HW) as [Hdn Hdw].
  unfold readable, received, elems_of in *. set (isz := itemsize (e_me e) (b_dtype b)) in *. set (es := group (Z.to_nat isz) (Z.to_nat (n * b_nmemb b)) d) in *.
  assert (Les : zlen es = n * b_nmemb b) by (unfold es, zlen; rewrite group_length; nia).
  assert (Ces : concat es = d).
  { unfold es. apply group_concat. unfold zlen in Hz. nia. }
  assert (Fes : Forall (fun v => length v = Z.to_nat isz) es).
  { unfold es. apply group_lengths. unfold zlen in Hz. nia. }
  destruct (convertible_dec (e_me e) (b_dtype b) (a_dtype a)) as [C|C].
  - destruct (HR C) as (outs & HF). destruct (Z.eq_dec n 0) as [->|Hn0].
    + assert (Ev : es = []) by (destruct es; [reflexivity|unfold zlen in Les; simpl in Les; lia]). rewrite Ev in *. inversion HF; subst.
      destruct (convert0 (e_me e) um (iter_init (e_me e) a) a lb1 (iter_init (e_me e) (chunk_array (e_me e) b 0)) (chunk_array (e_me e) b 0)) as (di' & si' & E & _); auto; try reflexivity; [discriminate|destruct T2; lia|].
      replace (Z.to_nat (0 * b_nmemb b)) with O by lia. eexists _, _, _, _, _. split; [exact E|]. split; [intros _; exists []; split; [constructor|apply wrote_nil]|intros; contradiction].
    + assert (Ha : array_ok a) by (apply T4; lia).
      assert (Hh : holds lb1 (elem_addr (chunk_array (e_me e) b n)) isz 0 es).
      { apply (holds_of_load lb1 (elem_addr (chunk_array (e_me e) b n)) isz 0 es 0); [lia|exact Fes| |].
        - intros j Hj. rewrite chunk_addr by lia. fold isz. lia.
        - rewrite Ces. replace (zlen es * isz) with (n * w) by nia. exact HL. }
      destruct (convert_spec (e_me e) um (iter_init (e_me e) a) a lb1 (iter_init (e_me e) (chunk_array (e_me e) b n)) (chunk_array (e_me e) b n) 0 0 es outs) as (um' & ia' & lb' & il' & E & _ & _ & W & S); auto; try lia.
      { apply chunk_array_ok; lia. }
      { apply (wb_dt _ _ _ _ HW). }
      { apply iter_init_at; auto. }
      { apply iter_init_at. apply chunk_array_ok; lia. }
      { cbn [a_size chunk_array]. lia. }
      { rewrite Les. exact Hm. }
      { rewrite Les. exact Hd. }
      { intros _. cbn [a_dtype chunk_array]. apply chunk_disjoint; fold isz; lia. }
      replace (length es) with (Z.to_nat (n * b_nmemb b)) in E by (unfold zlen in Les; lia).
      eexists _, _, _, _, _. split; [exact E|]. split; [intros _; exists outs; split; [exact HF|exact W]|intros; contradiction].
  - destruct (Z.eq_dec n 0) as [->|Hn0].
    + replace (Z.to_nat (0 * b_nmemb b)) with O by lia. eexists _, _, _, _, _. split; [eapply convert0_unsupported; [reflexivity|reflexivity|exact C]|]. split; [intros; contradiction|reflexivity].
    + assert (Ha : array_ok a) by (apply T4; lia).
      assert (Hh : holds lb1 (elem_addr (chunk_array (e_me e) b n)) isz 0 es).
      { apply (holds_of_load lb1 (elem_addr (chunk_array (e_me e) b n)) isz 0 es 0); [lia|exact Fes| |].
        - intros j Hj. rewrite chunk_addr by lia. fold isz. lia.
        - rewrite Ces. replace (zlen es * isz) with (n * w) by nia. exact HL. }
      destruct (convert_unsupported (e_me e) um (iter_init (e_me e) a) a lb1 (iter_init (e_me e) (chunk_array (e_me e) b n)) (chunk_array (e_me e) b n) 0 0 es) as (lb' & E & S); auto; try lia.
      { apply chunk_array_ok; lia. }
      { apply (wb_dt _ _ _ _ HW). }
      { apply iter_init_at; auto. }
      { apply iter_init_at. apply chunk_array_ok; lia. }
      { cbn [a_size chunk_array]. lia. }
      { intros _. cbn [a_dtype chunk_array]. apply chunk_disjoint; fold isz; lia. }
      replace (length es) with (Z.to_nat (n * b_nmemb b)) in E by (unfold zlen in Les; lia).
      eexists _, _, _, _, _. split; [exact E|]. split; [intros; contradiction|reflexivity].
Qed.

(* ------------------------------------------------- from a run to all runs *)
Lemma ends_does {B} N (E : fs -> fs -> Prop) (m : nat -> M B) f (P : (nat -> B) -> fs -> Prop) :
  (forall f, E f f) -> (forall f g h, E f g -> E g h -> E f h) -> (forall f g, E f g -> E g f) ->
  does N (fun _ => true) m f (fun l res f' => good E l /\ forall g, E f' g -> P res g) ->
  ends N (fun res s => P res (g_fs s)) (launch (fun i => whole (m i)) f).
Proof.
  intros E1 E2 E3 HD. eapply (ends_final N E E1 E2 E3 P _ (fun i => whole (m i)) f).
  - apply reach_quiet; [apply quiet_launch|reflexivity|reflexivity].
  - eapply goes_mono; [|apply (HD B (fun i => whole (m i)) (fun _ => Done)); reflexivity].
    cbv beta. intros l ps' f' (res & R1 & _ & G & R2). split; [exact G|]. exists res. split; [intros i Hi; apply R1; auto|exact R2].
Qed.

Lemma reads_good l : (forall i o, In (i, o) l -> some_read o) -> good eq l.
Proof.
  intros H. split.
  - intros i o Hi f g r f' E X. subst g. eauto.
  - intros i o1 j o2 Hi Hj _. destruct (H i o1 Hi) as (p1 & pos1 & n1 & ->). destruct (H j o2 Hj) as (p2 & pos2 & n2 & ->).
    split.
    + intros f r1 f1 r2 f2 H1 H2. destruct (op_read_ret p1 pos1 n1 f) as (x1 & X1). destruct (op_read_ret p2 pos2 n2 f) as (x2 & X2).
      rewrite X1 in H1. rewrite X2 in H2. injection H1 as <- <-. injection H2 as <- <-. exists f, f. auto.
    + intros f r2 f2 x X2 _. destruct (op_read_ret p1 pos1 n1 f) as (x1 & X1). eauto.
Qed.

(* --------------------------------------------------------------- checksums *)
Lemma zsum_one (g h : nat -> Z) r l : NoDup l -> In r l -> (forall i, In i l -> i <> r -> g i = h i) -> zsum (map g l) = zsum (map h l) + (g r - h r).
Proof.
  induction l as [|x l IH]; intros ND HI HE; [destruct HI|]. inversion ND; subst. cbn [map]. rewrite !zsum_cons. destruct (Nat.eq_dec x r) as [->|Hne].
  - replace (map g l) with (map h l); [lia|]. apply map_ext_in. intros i Hi. symmetry. apply HE; [right; auto|]. intros ->. contradiction.
  - destruct HI as [HI|HI]; [congruence|]. rewrite IH; auto; [|intros i Hi; apply HE; right; auto]. rewrite (HE x) by (auto; left; auto). lia.
Qed.

Lemma bytes_into_nil sizes j o : bytes_into sizes j o [] = 0. Proof. reflexivity. Qed.
Lemma bytes_into_app sizes j l1 l2 : forall o, bytes_into sizes j o (l1 ++ l2) = bytes_into sizes j o l1 + bytes_into sizes j (o + zlen l1) l2.
Proof.
  induction l1 as [|v l1 IH]; intros o; cbn [app bytes_into]; [rewrite Z.add_0_r; reflexivity|]. rewrite IH, zlen_cons. replace (o + 1 + zlen l1) with (o + (1 + zlen l1)) by lia. lia.
Qed.
Lemma flat_map_nil {X Y} (g : X -> list Y) l : (forall x, In x l -> g x = []) -> flat_map g l = [].
Proof. induction l as [|x l IH]; intros H; [reflexivity|]. cbn. rewrite (H x (or_introl eq_refl)). apply IH. intros; apply H; right; auto. Qed.
Lemma zsum_zero (n : nat -> Z) l : (forall i, In i l -> 0 <= n i) -> zsum (map n l) <= 0 -> forall i, In i l -> n i = 0.
Proof.
  induction l as [|x l IH]; intros Hn H i Hi; [destruct Hi|]. cbn [map] in H. rewrite zsum_cons in H.
  assert (0 <= zsum (map n l)) by (apply zsum_nonneg; apply Forall_map; apply Forall_forall; intros; apply Hn; right; auto). pose proof (Hn x (or_introl eq_refl)).
  destruct Hi as [<-|Hi]; [lia|]. apply IH; auto; [intros; apply Hn; right; auto|lia].
Qed.

Section Sums.
Variables (N : nat) (me : endian) (e : nat -> env) (b : nat -> block) (p : nat -> bptr) (sizes : list Z) (w : Z) (base dt : bytes) (nm o : Z) (n : nat -> Z).
Hypothesis HN : (0 < N)%nat.
Hypothesis HC : coll_ok N me e b p sizes w base dt nm o n.
Variables (limit ng : Z).
Hypothesis Hlim : 0 <= limit.
Variables (sg : nat -> segmenter) (ld : nat -> nat) (d : nat -> bytes).
Hypothesis HSG : segs_ok N n limit ng sg ld.
Notation seg := (segn N n limit ng).
Notation after := (after_write N b sizes w o n limit ng ld d).
Notation rows := (rows_by w n d).

Lemma sums_step j s : (j < length sizes)%nat ->
  recorded N (fun i => if seg i <? s + 1 then after i else b i) j mod 2 ^ 32 =
  (recorded N (fun i => if seg i <? s then after i else b i) j + bytes_into sizes j (o + usum N n seg s) (flat_map rows (smem N seg s))) mod 2 ^ 32.
Proof.
  intros Hj. pose proof (t_n N me e b p sizes w base dt nm o n HC) as Hn.
  assert (R0 : forall i, (i < N)%nat -> n i = 0 -> rows i = []). { intros i Hi E. unfold rows_by. rewrite E. reflexivity. }
  destruct (smem N seg s) as [|i0 rest] eqn:Em.
  { cbn [flat_map]. rewrite (bytes_into_nil), Z.add_0_r. f_equal. unfold recorded. f_equal. apply map_ext_in. intros i Hi. apply in_seq in Hi. 
    assert (seg i <> s). { intros E. assert (X : In i (smem N seg s)) by (apply smem_In; split; [lia|exact E]). rewrite Em in X. destruct X. }
    destruct (Z.ltb_spec (seg i) (s + 1)), (Z.ltb_spec (seg i) s); try lia; reflexivity. }
  assert (Hi0 : (i0 < N)%nat /\ seg i0 = s) by (apply smem_In; rewrite Em; left; reflexivity). destruct Hi0 as [Hi0 Es0].
  destruct (t_ld N n limit ng sg ld HSG i0 Hi0) as (L1 & L2 & L3). set (r := ld i0) in *.
  assert (Lr : forall i, (i < N)%nat -> seg i = s -> ld i = r). { intros i Hi E. destruct (t_same N n limit ng sg ld HSG i0 i Hi0 Hi ltac:(congruence)) as (_ & _ & X). exact X. }
  unfold recorded. rewrite (zsum_one _ (fun i => nth j (b_fchecksum (if seg i <? s then after i else b i)) 0) r); [|apply seq_NoDup|apply in_seq; lia|].
  2:{ intros i Hi Hne. apply in_seq in Hi. destruct (Z.ltb_spec (seg i) (s + 1)), (Z.ltb_spec (seg i) s); try lia; try reflexivity.
      assert (E : seg i = s) by lia. unfold after_write. rewrite (Lr i ltac:(lia) E). destruct (Nat.eqb_spec r i); [congruence|]. reflexivity. }
  replace (seg r <? s + 1) with true by lia. replace (seg r <? s) with false by lia.
  unfold after_write at 2. rewrite L3, Nat.eqb_refl. replace (seg r) with s by congruence. cbn [andb]. rewrite Em.
  rewrite <- Z.add_mod_idemp_r by lia. rewrite <- (Z.add_mod_idemp_r _ (bytes_into _ _ _ _)) by lia. f_equal. f_equal.
  destruct (Z.ltb_spec 0 (ssum N n seg s)) as [P|P].
  - cbn [b_fchecksum set_checksums set_bdirty].
    pose proof (wb_layout _ _ _ _ (co_block _ _ _ _ _ _ _ _ _ _ _ _ HC r L1)) as HL. set (c0 := nth j (b_fchecksum (b r)) 0).
    assert (Hc : 0 <= c0 < 2 ^ 32). { pose proof (hl_cksr _ _ HL) as F. rewrite Forall_forall in F. apply F. apply nth_In. rewrite (hl_cks _ _ HL). lia. }
    rewrite (add_sums_nth sizes _ j (b_fchecksum (b r)) (o + usum N n seg s) c0).
    + rewrite Zminus_mod_idemp_l. f_equal. lia.
    + rewrite (hl_cks _ _ HL). lia.
    + fold c0. rewrite Z.mod_small; lia.
  - rewrite Z.sub_diag. rewrite <- Em. replace (flat_map rows (smem N seg s)) with (@nil bytes); [rewrite bytes_into_nil; reflexivity|].
    symmetry. unfold ssum in P. apply flat_map_nil. intros i Hi. apply R0; [apply smem_In in Hi; apply Hi|].
    apply (zsum_zero n (smem N seg s)); auto. intros q Hq. apply Hn. apply smem_In in Hq. apply Hq. 
Qed.

Lemma sums_all j : (j < length sizes)%nat ->
  recorded N after j mod 2 ^ 32 = (recorded N b j + bytes_into sizes j o (flat_map rows (seq 0 N))) mod 2 ^ 32.
Proof.
  intros Hj. pose proof (t_n N me e b p sizes w base dt nm o n HC) as Hn. 
  assert (R0 : forall i, (i < N)%nat -> n i = 0 -> rows i = []). { intros i Hi E. unfold rows_by. rewrite E. reflexivity. }
  assert (Ht : zsum (map n (seq 0 N)) < 2 ^ 63) by (pose proof (co_end _ _ _ _ _ _ _ _ _ _ _ _ HC); pose proof (pa_range _ _ _ (co_ptr _ _ _ _ _ _ _ _ _ _ _ _ HC 0%nat HN)); lia).
  pose proof (segn_empty N n limit ng Hn Ht Hlim) as Te. pose proof (segn_mono N n limit ng Hn Ht Hlim) as Tm.
  assert (Td : forall i, (i < N)%nat -> 0 < n i -> 0 <= seg i < Z.of_nat N) by (intros i Hi P; apply (segn_data N n limit ng Hn Ht Hlim i Hi P)).
  assert (G : forall k : nat, recorded N (fun i => if seg i <? Z.of_nat k then after i else b i) j mod 2 ^ 32 = (recorded N b j + bytes_into sizes j o (flat_map rows (upto N seg (Z.of_nat k)))) mod 2 ^ 32).
  { induction k as [|k IH].
    - change (Z.of_nat 0) with 0. rewrite (upto_zero N n seg Hn Te Td Tm). rewrite bytes_into_nil, Z.add_0_r. f_equal. unfold recorded. f_equal. apply map_ext_in. intros i Hi. apply in_seq in Hi.
      pose proof (segn_range N n limit ng Hn Ht Hlim i ltac:(lia)). replace (seg i <? 0) with false by lia. reflexivity.
    - replace (Z.of_nat (S k)) with (Z.of_nat k + 1) by lia. rewrite sums_step by auto. rewrite (upto_step N n seg Hn Te Td Tm rows _ R0).
      rewrite bytes_into_app. replace (zlen (flat_map rows (upto N seg (Z.of_nat k)))) with (usum N n seg (Z.of_nat k)).
      2:{ rewrite zlen_flat_map. unfold usum. f_equal. apply map_ext_in. intros i Hi. apply filter_In in Hi. destruct Hi as [Hi _]. apply in_seq in Hi. unfold rows_by, zlen. rewrite group_length. pose proof (Hn i ltac:(lia)). lia. }
      rewrite Z.add_assoc, <- Z.add_mod_idemp_l, IH, Z.add_mod_idemp_l by lia. reflexivity. }
  specialize (G (N + 2)%nat). replace (Z.of_nat (N + 2)) with (Z.of_nat N + 2) in G by lia. rewrite (upto_all N n seg Hn Te Td Tm) in G. rewrite <- G. f_equal. unfold recorded. f_equal. apply map_ext_in. intros i Hi. apply in_seq in Hi.
  pose proof (segn_range N n limit ng Hn Ht Hlim i ltac:(lia)). replace (seg i <? Z.of_nat N + 2) with true by lia. reflexivity.
Qed.
End Sums.

(* ---------------------------------------------------------- whole calls *)
Lemma flat_map_ext_in {X Y} (g h : X -> list Y) l : (forall x, In x l -> g x = h x) -> flat_map g l = flat_map h l.
Proof. induction l as [|x l IH]; intros H; [reflexivity|]. cbn. rewrite (H x (or_introl eq_refl)), IH; auto. intros; apply H; right; auto. Qed.

Lemma concat_group_id k (l : list bytes) : Forall (fun v => length v = k) l -> group k (length l) (concat l) = l.
Proof.
  induction l as [|v l IH]; intros H; [reflexivity|]. inversion H; subst. cbn [length group concat]. rewrite firstn_app, Nat.sub_diag, firstn_all, firstn_O, app_nil_r, skipn_app, Nat.sub_diag, skipn_all. cbn [skipn app]. rewrite IH; auto.
Qed.
Lemma zlen_concat_widths k (l : list bytes) : 0 <= k -> Forall (fun v => length v = Z.to_nat k) l -> zlen (concat l) = zlen l * k.
Proof.
  intros Hk. induction l as [|v l IH]; intros H; [reflexivity|]. inversion H; subst. cbn [concat]. rewrite zlen_app, zlen_cons, IH by auto. unfold zlen at 1. nia.
Qed.
Lemma converts_widths me sd dd vs outs : dt_ok me sd -> dt_ok me dd -> Forall2 (converts me sd dd) vs outs -> Forall (fun v => length v = Z.to_nat (itemsize me sd)) vs ->
  Forall (fun v => length v = Z.to_nat (itemsize me dd)) outs.
Proof. intros H1 H2 HF. induction HF as [|v r vs outs C HF IH]; intros H3; [constructor|]. inversion H3; subst. constructor; auto. apply (converts_length me sd dd v r); auto. Qed.

Lemma total_list me sd dd : (forall v, length v = Z.to_nat (itemsize me sd) -> exists r, converts me sd dd v r) ->
  forall vs, Forall (fun v => length v = Z.to_nat (itemsize me sd)) vs -> exists outs, Forall2 (converts me sd dd) vs outs.
Proof.
  intros H vs HF. induction HF as [|v vs Hv HF (outs & IH)]; [exists []; constructor|]. destruct (H v Hv) as (r & Hr). exists (r :: outs). constructor; auto.
Qed.

Section Calls.
Variables (N : nat) (me : endian) (e : nat -> env) (b : nat -> block) (p : nat -> bptr) (sizes : list Z) (w : Z) (base dt : bytes) (nm o : Z) (n : nat -> Z).
Hypothesis HN : (0 < N)%nat.
Hypothesis HC : coll_ok N me e b p sizes w base dt nm o n.
Variables (a : nat -> array) (um : nat -> mem) (thr conc : Z).
Hypothesis Hsm : segments_small N thr n.

Definition converted (i : nat) := dtype_convert (e_me (e i)) (fresh (e i) (itemsize (e_me (e i)) (b_dtype (b i)) * b_nmemb (b i) * n i)) (iter_init (e_me (e i)) (chunk_array (e_me (e i)) (b i) (n i))) (um i) (iter_init (e_me (e i)) (a i)) (Z.to_nat (n i * b_nmemb (b i))).
Definition conv_um (i : nat) : mem := match converted i with Ret (_, _, _, m, _) => m | _ => um i end.
Definition conv_d (i : nat) : bytes := match converted i with Ret (_, lb, _, _, _) => match load lb 0 (Z.to_nat (n i * w)) with Some d => d | None => [] end | _ => [] end.

Lemma conv_sent (vs outs : nat -> list bytes) : (forall i, (i < N)%nat -> rank_source me (a i) (um i) (n i) nm (vs i)) ->
  (forall i, (i < N)%nat -> convertible me (a_dtype (a i)) dt -> Forall2 (converts me (a_dtype (a i)) dt) (vs i) (outs i)) ->
  forall i, (i < N)%nat -> exists rc lb1 il' ia', converted i = Ret (rc, lb1, il', conv_um i, ia') /\ load lb1 0 (Z.to_nat (n i * w)) = Some (conv_d i) /\
    src_after me (um i) (conv_um i) (a i) 0 (vs i) /\ (convertible me (a_dtype (a i)) dt -> conv_d i = concat (outs i)).
Proof.
  intros HS HF i Hi. specialize (HS i Hi). specialize (HF i Hi). pose proof (co_me _ _ _ _ _ _ _ _ _ _ _ _ HC i Hi) as Eme. pose proof (co_nm _ _ _ _ _ _ _ _ _ _ _ _ HC i Hi) as Enm. pose proof (co_dt _ _ _ _ _ _ _ _ _ _ _ _ HC i Hi) as Edt.
  destruct (send_buffer (e i) (b i) sizes w (a i) (um i) (n i) (vs i) (outs i)) as (rc & lb1 & il' & um1 & ia' & d & E & L & S & C & _).
  - apply (co_block _ _ _ _ _ _ _ _ _ _ _ _ HC i Hi).
  - apply (co_n _ _ _ _ _ _ _ _ _ _ _ _ HC i Hi).
  - rewrite Eme, Enm. exact HS.
  - rewrite Eme, Edt. exact HF.
  - exists rc, lb1, il', ia'. unfold conv_um, conv_d. unfold converted. rewrite E, L, <- Eme, <- Edt. auto.
Qed.

Lemma rows_by_outs (vs outs : nat -> list bytes) i : (i < N)%nat -> rank_source me (a i) (um i) (n i) nm (vs i) -> convertible me (a_dtype (a i)) dt ->
  Forall2 (converts me (a_dtype (a i)) dt) (vs i) (outs i) -> conv_d i = concat (outs i) -> rows_by w n conv_d i = rows_of nm (n i) (outs i).
Proof.
  intros Hi HS HCv HF E. unfold rows_by. rewrite E. pose proof (co_block _ _ _ _ _ _ _ _ _ _ _ _ HC i Hi) as HW. pose proof (wb_w _ _ _ _ HW) as Ew. destruct (wb_dt _ _ _ _ HW) as [Hdn Hdw]. pose proof (wb_nmemb _ _ _ _ HW) as Hnm.
  rewrite (co_me _ _ _ _ _ _ _ _ _ _ _ _ HC i Hi), (co_dt _ _ _ _ _ _ _ _ _ _ _ _ HC i Hi) in *. rewrite (co_nm _ _ _ _ _ _ _ _ _ _ _ _ HC i Hi) in *.
  assert (Lo : length (outs i) = Z.to_nat (n i * nm)) by (rewrite <- (Forall2_length HF); pose proof (sc_len _ _ _ _ _ _ HS) as L; unfold zlen in L; lia).
  assert (Wo : Forall (fun v => length v = Z.to_nat (itemsize me dt)) (outs i)).
  { eapply converts_widths; [apply (tp_dt _ _ _ _ (sc_part _ _ _ _ _ _ HS))|split; auto|exact HF|]. eapply holds_Forall. apply (sc_holds _ _ _ _ _ _ HS). }
  rewrite <- (concat_group_id (Z.to_nat (itemsize me dt)) (outs i) Wo) at 2. rewrite Lo. rewrite rows_of_bytes; [rewrite Ew; reflexivity|lia|lia|apply (co_n _ _ _ _ _ _ _ _ _ _ _ _ HC i Hi)|].
  rewrite (zlen_concat_widths (itemsize me dt) _ (Z.lt_le_incl _ _ Hdw) Wo). unfold zlen. rewrite Lo. pose proof (co_n _ _ _ _ _ _ _ _ _ _ _ _ HC i Hi). nia.
Qed.

Definition write_result (vs outs : nat -> list bytes) (f : fs) (res : nat -> Z * block * bptr * mem) (g : fs) : Prop :=
  let rows := flat_map (fun i => rows_of nm (n i) (outs i)) (seq 0 N) in
      spares base sizes w o (o + total N n) f g /\ exists rc b' p' um', (rc = 0 \/ rc = -1) /\
      (rc = 0 <-> o + total N n <= zsum sizes /\ rows_exist f base sizes o (o + total N n)) /\
      (forall i, (i < N)%nat -> res i = (rc, b' i, p' i, um' i) /\ like (b i) (b' i) /\ wblock (e i) (b' i) sizes w /\
        (rc = 0 -> ptr_at sizes (p' i) (o + total N n)) /\ (rc <> 0 -> p' i = p i) /\ (um' i = um i \/ src_after me (um i) (um' i) (a i) 0 (vs i))) /\
      (rc = 0 -> (forall i, (i < N)%nat -> convertible me (a_dtype (a i)) dt) ->
        fs_eq g (put_rows f base sizes w o rows) /\
        (forall i, (i < N)%nat -> src_after me (um i) (um' i) (a i) 0 (vs i) /\ (b_fchecksum (b' i) <> b_fchecksum (b i) -> b_dirty (b' i) = true)) /\
        forall j, (j < length sizes)%nat -> recorded N b' j mod 2 ^ 32 = (recorded N b j + bytes_into sizes j o rows) mod 2 ^ 32).
Theorem lead_write (vs outs : nat -> list bytes) f : (forall i, (i < N)%nat -> rank_source me (a i) (um i) (n i) nm (vs i)) ->
  (forall i, (i < N)%nat -> convertible me (a_dtype (a i)) dt -> Forall2 (converts me (a_dtype (a i)) dt) (vs i) (outs i)) ->
  leads N [] (fun i => mpi_write thr (e i) (world N) i (b i) (p i) (a i) (um i) conc) f (write_result vs outs f).
Proof.
  intros HS HF. set (rows := flat_map (fun i => rows_of nm (n i) (outs i)) (seq 0 N)). destruct Hsm as [Hthr Hsm'].
  pose proof (conv_sent vs outs HS HF) as HK.
  assert (HD := call_write N me e b p sizes w base dt nm o n HN HC a um thr conc [] Hthr Hsm' (fun i Hi => tp_rows _ _ _ _ (sc_part _ _ _ _ _ _ (HS i Hi))) conv_d conv_um f).
  assert (Hcv : forall i, (i < N)%nat -> exists rc lb1 il' ia', converted i = Ret (rc, lb1, il', conv_um i, ia') /\ load lb1 0 (Z.to_nat (n i * w)) = Some (conv_d i)).
  { intros i Hi. destruct (HK i Hi) as (rc & lb1 & il' & ia' & E & L & _). exists rc, lb1, il', ia'. auto. }
  specialize (HD Hcv).
  pose proof (co_block _ _ _ _ _ _ _ _ _ _ _ _ HC 0%nat HN) as HW0. pose proof (wb_wpos _ _ _ _ HW0) as Hw0. pose proof (wb_layout _ _ _ _ HW0) as HL0.
  assert (AL : 0 <= alimit N n thr conc) by (apply (alimit_range N n HN a um thr conc Hthr); intros i Hi; apply (tp_rows _ _ _ _ (sc_part _ _ _ _ _ _ (HS i Hi)))).
  assert (Hin : forall l : list (nat * act), (forall j x, In (j, x) l -> row_write base sizes w o (o + total N n) x) -> forall j x, In (j, x) l -> inside (row_bytes base sizes w o (o + total N n)) x).
  { intros l H j x Hj. apply row_write_inside; [apply HL0|exact Hw0|eauto]. }
  destruct (Z_le_gt_dec (o + total N n) (zsum sizes)) as [Hr|Hr].
  - apply (fenced_leads N fs_eq fs_eq_refl fs_eq_trans fs_eq_sym) with (1 := HD).
    intros l res f' HKp (sg & ld & rc & HSG & Hrc & HR & HSF & HL & Hout & Hs0 & Hrw & Hgood & Hfine).
    split; [apply Hgood; exact Hr|]. intros g Eg. split; [eapply alike_spares; [apply HL0|apply HL0|exact Hw0|apply (ran_kept _ _ _ _ _ HKp); apply Hin; exact Hrw|apply fs_eq_alike; exact Eg]|].
    exists rc, (fun i => match res i with (_, b', _, _) => b' end), (fun i => match res i with (_, _, p', _) => p' end), (fun i => match res i with (_, _, _, u) => u end).
    split; [exact Hrc|]. split; [split; [exact Hs0|intros G; apply Hfine; exact G]|]. split.
    + intros i Hi. destruct (HR i Hi) as (bi & pi & ui & Er & Lk & Wb & Um & Pt & Pf & Fn). rewrite Er. split; [reflexivity|]. split; [exact Lk|]. split; [exact Wb|]. split; [exact Pt|]. split; [exact Pf|].
      destruct Um as [->| ->]; [left; reflexivity|right]. destruct (HK i Hi) as (_ & _ & _ & _ & _ & _ & S & _). exact S.
    + intros R HCv. pose proof (Hs0 R) as Fine. destruct (Hfine Fine) as (_ & Ef).
      assert (Erow : flat_map (rows_by w n conv_d) (seq 0 N) = rows).
      { unfold rows. apply flat_map_ext_in. intros i Hi. apply in_seq in Hi. destruct (HK i ltac:(lia)) as (_ & _ & _ & _ & _ & _ & _ & E). assert (Hi' : (i < N)%nat) by lia. apply (rows_by_outs vs outs i Hi' (HS i Hi') (HCv i Hi') (HF i Hi' (HCv i Hi')) (E (HCv i Hi'))). }
      change (flat_map (fun i => rows_of nm (n i) (outs i)) (seq 0 N)) with rows. cbv zeta. rewrite <- Erow. split; [eapply fs_eq_trans; [apply fs_eq_sym; exact Eg|exact Ef]|].
      assert (Eb : forall i, (i < N)%nat -> match res i with (_, b', _, _) => b' end = after_write N b sizes w o n (alimit N n thr conc) (ngroup N conc) ld conv_d i /\ match res i with (_, _, _, u) => u end = conv_um i).
      { intros i Hi. destruct (HR i Hi) as (bi & pi & ui & Er & _ & _ & _ & _ & _ & Fn). rewrite Er. apply Fn. exact Fine. }
      split.
      * intros i Hi. destruct (Eb i Hi) as [-> ->]. split; [destruct (HK i Hi) as (_ & _ & _ & _ & _ & _ & S & _); exact S|]. unfold after_write. destruct (_ && _); [intros; reflexivity|]. intros X. congruence.
      * intros j Hj. transitivity (recorded N (after_write N b sizes w o n (alimit N n thr conc) (ngroup N conc) ld conv_d) j mod 2 ^ 32); [|eapply sums_all; eauto].
        f_equal. unfold recorded. f_equal. apply map_ext_in. intros i Hi. apply in_seq in Hi. destruct (Eb i ltac:(lia)) as [-> _]. reflexivity.
  - apply (fenced_leads N (alike (row_bytes base sizes w o (o + total N n))) (alike_refl _) (alike_trans _) (alike_sym _)) with (1 := HD).
    intros l res f' HKp (sg & ld & rc & HSG & Hrc & HR & HSF & HL & Hout & Hs0 & Hrw & Hgood & Hfine).
    split; [apply inside_good; apply Hin; exact Hrw|]. intros g Eg. split; [eapply alike_spares; [apply HL0|apply HL0|exact Hw0|apply (ran_kept _ _ _ _ _ HKp); apply Hin; exact Hrw|exact Eg]|].
    exists rc, (fun i => match res i with (_, b', _, _) => b' end), (fun i => match res i with (_, _, p', _) => p' end), (fun i => match res i with (_, _, _, u) => u end).
    specialize (Hout ltac:(unfold total in *; lia)). split; [exact Hrc|]. split; [split; [lia|intros [G _]; lia]|]. split.
    + intros i Hi. destruct (HR i Hi) as (bi & pi & ui & Er & Lk & Wb & Um & Pt & Pf & Fn). rewrite Er. split; [reflexivity|]. split; [exact Lk|]. split; [exact Wb|]. split; [exact Pt|]. split; [exact Pf|].
      destruct Um as [->| ->]; [left; reflexivity|right]. destruct (HK i Hi) as (_ & _ & _ & _ & _ & _ & S & _). exact S.
    + intros R. lia.
Qed.

Theorem coll_write_any (vs outs : nat -> list bytes) f : (forall i, (i < N)%nat -> rank_source me (a i) (um i) (n i) nm (vs i)) ->
  (forall i, (i < N)%nat -> convertible me (a_dtype (a i)) dt -> Forall2 (converts me (a_dtype (a i)) dt) (vs i) (outs i)) ->
  let rows := flat_map (fun i => rows_of nm (n i) (outs i)) (seq 0 N) in
  ends N (fun res s => spares base sizes w o (o + total N n) f (g_fs s) /\ exists rc b' p' um', (rc = 0 \/ rc = -1) /\
      (rc = 0 <-> o + total N n <= zsum sizes /\ rows_exist f base sizes o (o + total N n)) /\
      (forall i, (i < N)%nat -> res i = (rc, b' i, p' i, um' i) /\ like (b i) (b' i) /\ wblock (e i) (b' i) sizes w /\
        (rc = 0 -> ptr_at sizes (p' i) (o + total N n)) /\ (rc <> 0 -> p' i = p i) /\ (um' i = um i \/ src_after me (um i) (um' i) (a i) 0 (vs i))) /\
      (rc = 0 -> (forall i, (i < N)%nat -> convertible me (a_dtype (a i)) dt) ->
        fs_eq (g_fs s) (put_rows f base sizes w o rows) /\
        (forall i, (i < N)%nat -> src_after me (um i) (um' i) (a i) 0 (vs i) /\ (b_fchecksum (b' i) <> b_fchecksum (b i) -> b_dirty (b' i) = true)) /\
        forall j, (j < length sizes)%nat -> recorded N b' j mod 2 ^ 32 = (recorded N b j + bytes_into sizes j o rows) mod 2 ^ 32))
    (launch (fun i => whole (mpi_write thr (e i) (world N) i (b i) (p i) (a i) (um i) conc)) f).
Proof. intros HS HF rows. exact (ends_leads N _ f _ (lead_write vs outs f HS HF)). Qed.

(* The bytes rank i should receive. *)
Lemma elems_rows i es : (i < N)%nat -> zlen es = n i * nm -> Forall (fun v => length v = Z.to_nat (itemsize me dt)) es ->
  elems_of (e i) (b i) (n i) (concat (rows_of nm (n i) es)) = es /\ zlen (concat (rows_of nm (n i) es)) = n i * w /\ zlen (rows_of nm (n i) es) = n i.
Proof.
  intros Hi Hl HF. pose proof (co_block _ _ _ _ _ _ _ _ _ _ _ _ HC i Hi) as HW. pose proof (wb_w _ _ _ _ HW) as Ew. destruct (wb_dt _ _ _ _ HW) as [Hdn Hdw]. pose proof (wb_nmemb _ _ _ _ HW) as Hnm. pose proof (co_n _ _ _ _ _ _ _ _ _ _ _ _ HC i Hi) as Hn.
  unfold elems_of. rewrite (co_me _ _ _ _ _ _ _ _ _ _ _ _ HC i Hi), (co_dt _ _ _ _ _ _ _ _ _ _ _ _ HC i Hi) in *. rewrite (co_nm _ _ _ _ _ _ _ _ _ _ _ _ HC i Hi) in *.
  assert (Ec : concat (rows_of nm (n i) es) = concat es).
  { unfold rows_of. rewrite <- (group_concat (Z.to_nat nm) (Z.to_nat (n i)) es) at 2 by (unfold zlen in Hl; nia). clear. induction (group (Z.to_nat nm) (Z.to_nat (n i)) es) as [|x l IH]; [reflexivity|]. cbn [map concat]. rewrite IH, concat_app. reflexivity. }
  rewrite Ec. split; [|split].
  - replace (Z.to_nat (n i * nm)) with (length es) by (unfold zlen in Hl; lia). apply concat_group_id. exact HF.
  - rewrite (zlen_concat_widths (itemsize me dt) _ (Z.lt_le_incl _ _ Hdw) HF). nia.
  - unfold rows_of, zlen. rewrite map_length, group_length. lia.
Qed.

Definition read_result (outs : nat -> list bytes) (f : fs) (res : nat -> Z * block * bptr * mem) (g : fs) : Prop := g = f /\
      forall i, (i < N)%nat -> exists p' um', res i = (0, b i, p', um') /\ ptr_at sizes p' (o + total N n) /\
        wrote (um i) um' (elem_addr (a i)) (itemsize me (a_dtype (a i))) 0 (outs i).
Theorem lead_read (es outs : nat -> list bytes) f : (forall i, (i < N)%nat -> rank_target me (a i) (um i) (n i) nm) ->
  (forall i, (i < N)%nat -> convertible me dt (a_dtype (a i))) ->
  (forall i, (i < N)%nat -> zlen (es i) = n i * nm /\ Forall (fun v => length v = Z.to_nat (itemsize me dt)) (es i)) ->
  (forall i, (i < N)%nat -> Forall2 (converts me dt (a_dtype (a i))) (es i) (outs i)) ->
  o + total N n <= zsum sizes ->
  (forall i k v, (i < N)%nat -> nth_error (rows_of nm (n i) (es i)) k = Some v -> stored_row f base sizes w (o + before n i + Z.of_nat k) = Some v) ->
  leads N [] (fun i => mpi_read thr (e i) (world N) i (b i) (p i) (a i) (um i) conc) f (read_result outs f).
Proof.
  intros HT HCv Hes HF Hin Hst. destruct Hsm as [Hthr Hsm'].
  set (R := fun i => rows_of nm (n i) (es i)).
  pose proof (co_n _ _ _ _ _ _ _ _ _ _ _ _ HC) as Hn0.
  assert (There : all_there N sizes w base o n f R).
  { split; [exact Hin|]. split; [intros i Hi; apply elems_rows; auto; apply Hes; auto|].
    assert (G : forall m, (m <= N)%nat -> zlen (flat_map R (seq 0 m)) = before n m /\ forall j v, nth_error (flat_map R (seq 0 m)) j = Some v -> stored_row f base sizes w (o + Z.of_nat j) = Some v).
    { induction m as [|m IH]; intros Hm; [split; [reflexivity|intros j v Hj; destruct j; discriminate]|]. destruct (IH ltac:(lia)) as [I1 I2]. unfold before in *. rewrite seq_S, flat_map_app, map_app, zsum_app, zlen_app. cbn [flat_map map Nat.add]. rewrite app_nil_r, zsum_cons.
      destruct (Hes m ltac:(lia)) as [E1 E2]. destruct (elems_rows m (es m) ltac:(lia) E1 E2) as (_ & _ & L). split; [unfold R at 2; rewrite L, I1; change (zsum []) with 0; lia|].
      intros j v Hj. destruct (Nat.lt_ge_cases j (length (flat_map R (seq 0 m)))) as [Lt|Ge]; [rewrite nth_error_app1 in Hj by auto; apply I2; exact Hj|]. rewrite nth_error_app2 in Hj by auto.
      replace (o + Z.of_nat j) with (o + before n m + Z.of_nat (j - length (flat_map R (seq 0 m)))); [apply Hst; [lia|exact Hj]|]. unfold before. unfold zlen in I1. lia. }
    apply G. lia. }
  eapply (fenced_leads N eq (@eq_refl _) (@eq_trans _) (@eq_sym _)); [apply (call_read N me e b p sizes w base dt nm o n HN HC a um thr conc [] Hthr Hsm' (fun i Hi => tp_rows _ _ _ _ (tg_part _ _ _ _ _ (HT i Hi))) f (fun i d => readable (e i) (b i) (a i) (n i) d) (fun i d um' => received (e i) (b i) (a i) (um i) (n i) d um') R)|].
  - intros i d lb1 Hi Hz Hr HL. apply (receive_buffer (e i) (b i) sizes w (a i) (um i) (n i) d lb1 (co_block _ _ _ _ _ _ _ _ _ _ _ _ HC i Hi) (Hn0 i Hi)); auto.
    rewrite (co_me _ _ _ _ _ _ _ _ _ _ _ _ HC i Hi), (co_nm _ _ _ _ _ _ _ _ _ _ _ _ HC i Hi). apply HT. exact Hi.
  - right. split; [exact There|]. intros i Hi. unfold readable. destruct (Hes i Hi) as [E1 E2]. destruct (elems_rows i (es i) Hi E1 E2) as (Ee & _ & _). unfold R. rewrite Ee, (co_me _ _ _ _ _ _ _ _ _ _ _ _ HC i Hi), (co_dt _ _ _ _ _ _ _ _ _ _ _ _ HC i Hi). eauto.
  - cbv beta. intros l res f' _ (-> & HL & rc & Hrc & HR & Hout & Hmiss & Hok). specialize (Hok There). subst rc. split; [apply reads_good; exact HL|]. intros g <-. split; [reflexivity|].
    intros i Hi. destruct (HR i Hi) as (p' & um' & Er & Pt & _ & [[_ X]|X]); [congruence|]. destruct X as (d & Zd & Rd & [Po _] & Ed). exists p', um'. split; [exact Er|]. split; [apply Pt; reflexivity|].
    specialize (Ed There). subst d. destruct (Hes i Hi) as [E1 E2]. destruct (elems_rows i (es i) Hi E1 E2) as (Ee & _ & _). unfold R in Po. rewrite Ee in Po.
    rewrite (co_me _ _ _ _ _ _ _ _ _ _ _ _ HC i Hi), (co_dt _ _ _ _ _ _ _ _ _ _ _ _ HC i Hi) in Po. destruct (Po (HCv i Hi)) as (outs' & F' & W).
    replace (outs i) with outs'; [exact W|]. specialize (HF i Hi). clear -F' HF. revert HF. generalize (outs i). induction F' as [|v r l1 l2 C F IH]; intros l HF; inversion HF as [|? r2 ? l3 C2 HF2]; subst; [reflexivity|]. f_equal; [unfold converts in *; congruence|apply IH; exact HF2].
Qed.

Theorem coll_read (es outs : nat -> list bytes) f : (forall i, (i < N)%nat -> rank_target me (a i) (um i) (n i) nm) ->
  (forall i, (i < N)%nat -> convertible me dt (a_dtype (a i))) ->
  (forall i, (i < N)%nat -> zlen (es i) = n i * nm /\ Forall (fun v => length v = Z.to_nat (itemsize me dt)) (es i)) ->
  (forall i, (i < N)%nat -> Forall2 (converts me dt (a_dtype (a i))) (es i) (outs i)) ->
  o + total N n <= zsum sizes ->
  (forall i k v, (i < N)%nat -> nth_error (rows_of nm (n i) (es i)) k = Some v -> stored_row f base sizes w (o + before n i + Z.of_nat k) = Some v) ->
  ends N (fun res s => g_fs s = f /\
      forall i, (i < N)%nat -> exists p' um', res i = (0, b i, p', um') /\ ptr_at sizes p' (o + total N n) /\
        wrote (um i) um' (elem_addr (a i)) (itemsize me (a_dtype (a i))) 0 (outs i))
    (launch (fun i => whole (mpi_read thr (e i) (world N) i (b i) (p i) (a i) (um i) conc)) f).
Proof. intros H1 H2 H3 H4 H5 H6. exact (ends_leads N _ f _ (lead_read es outs f H1 H2 H3 H4 H5 H6)). Qed.

Definition read_any (f : fs) (res : nat -> Z * block * bptr * mem) (g : fs) : Prop := g = f /\ exists rc, (rc = 0 \/ rc = -1) /\ (zsum sizes < o + total N n -> rc = -1) /\
      ((exists q, o <= q < o + total N n /\ stored_row f base sizes w q = None) -> rc = -1) /\
      forall i, (i < N)%nat -> exists p' um', res i = (rc, b i, p', um') /\
        (rc = 0 -> ptr_at sizes p' (o + total N n)) /\ (rc <> 0 -> p' = p i) /\
        (forall x, ~ in_elems (elem_addr (a i)) (itemsize me (a_dtype (a i))) 0 (n i * nm) x -> um' x = um i x).
Theorem lead_read_any f : (forall i, (i < N)%nat -> rank_target me (a i) (um i) (n i) nm) ->
  (forall i, (i < N)%nat -> convertible me dt (a_dtype (a i)) -> forall v, length v = Z.to_nat (itemsize me dt) -> exists r, converts me dt (a_dtype (a i)) v r) ->
  leads N [] (fun i => mpi_read thr (e i) (world N) i (b i) (p i) (a i) (um i) conc) f (read_any f).
Proof.
  intros HT HCv. destruct Hsm as [Hthr Hsm']. pose proof (co_n _ _ _ _ _ _ _ _ _ _ _ _ HC) as Hn0.
  eapply (fenced_leads N eq (@eq_refl _) (@eq_trans _) (@eq_sym _)); [apply (call_read N me e b p sizes w base dt nm o n HN HC a um thr conc [] Hthr Hsm' (fun i Hi => tp_rows _ _ _ _ (tg_part _ _ _ _ _ (HT i Hi))) f (fun i d => readable (e i) (b i) (a i) (n i) d) (fun i d um' => received (e i) (b i) (a i) (um i) (n i) d um') (fun _ => []))|].
  - intros i d lb1 Hi Hz Hr HL. apply (receive_buffer (e i) (b i) sizes w (a i) (um i) (n i) d lb1 (co_block _ _ _ _ _ _ _ _ _ _ _ _ HC i Hi) (Hn0 i Hi)); auto.
    rewrite (co_me _ _ _ _ _ _ _ _ _ _ _ _ HC i Hi), (co_nm _ _ _ _ _ _ _ _ _ _ _ _ HC i Hi). apply HT. exact Hi.
  - left. intros i d Hi Hz. unfold readable. intros C. rewrite (co_me _ _ _ _ _ _ _ _ _ _ _ _ HC i Hi), (co_dt _ _ _ _ _ _ _ _ _ _ _ _ HC i Hi) in *. unfold elems_of. rewrite (co_me _ _ _ _ _ _ _ _ _ _ _ _ HC i Hi), (co_dt _ _ _ _ _ _ _ _ _ _ _ _ HC i Hi), (co_nm _ _ _ _ _ _ _ _ _ _ _ _ HC i Hi).
    apply (total_list me dt (a_dtype (a i)) (HCv i Hi C)). apply group_lengths.
    pose proof (co_block _ _ _ _ _ _ _ _ _ _ _ _ HC i Hi) as HW. pose proof (wb_w _ _ _ _ HW) as Ew. destruct (wb_dt _ _ _ _ HW) as [Hdn Hdw]. pose proof (wb_nmemb _ _ _ _ HW) as Hnm. pose proof (Hn0 i Hi).
    rewrite (co_me _ _ _ _ _ _ _ _ _ _ _ _ HC i Hi), (co_dt _ _ _ _ _ _ _ _ _ _ _ _ HC i Hi) in *. rewrite (co_nm _ _ _ _ _ _ _ _ _ _ _ _ HC i Hi) in *. unfold zlen in Hz. clear -Hz Ew Hdw Hnm H. nia.
  - cbv beta. intros l res f' _ (-> & HL & rc & Hrc & HR & Hout & Hmiss & _). split; [apply reads_good; exact HL|]. intros g <-. split; [reflexivity|]. exists rc. split; [exact Hrc|]. split; [exact Hout|]. split; [exact Hmiss|].
    intros i Hi. destruct (HR i Hi) as (p' & um' & Er & Pt & Pf & D). exists p', um'. split; [exact Er|]. split; [exact Pt|]. split; [exact Pf|].
    destruct D as [[-> _]|(d & Zd & _ & [Po1 Po2] & _)]; [reflexivity|]. destruct (convertible_dec (e_me (e i)) (b_dtype (b i)) (a_dtype (a i))) as [C|C]; [|rewrite (Po2 C); reflexivity].
    destruct (Po1 C) as (outs & F & [_ W]). intros x Hx. apply W. rewrite (co_me _ _ _ _ _ _ _ _ _ _ _ _ HC i Hi) in *. intros X. apply Hx.
    replace (n i * nm) with (zlen outs); [exact X|]. unfold zlen. rewrite <- (Forall2_length F). unfold elems_of. rewrite group_length, (co_nm _ _ _ _ _ _ _ _ _ _ _ _ HC i Hi).
    pose proof (Hn0 i Hi). pose proof (wb_nmemb _ _ _ _ (co_block _ _ _ _ _ _ _ _ _ _ _ _ HC i Hi)) as Q. rewrite (co_nm _ _ _ _ _ _ _ _ _ _ _ _ HC i Hi) in Q. nia.
Qed.
Theorem coll_read_any f : (forall i, (i < N)%nat -> rank_target me (a i) (um i) (n i) nm) ->
  (forall i, (i < N)%nat -> convertible me dt (a_dtype (a i)) -> forall v, length v = Z.to_nat (itemsize me dt) -> exists r, converts me dt (a_dtype (a i)) v r) ->
  ends N (fun res s => g_fs s = f /\ exists rc, (rc = 0 \/ rc = -1) /\ (zsum sizes < o + total N n -> rc = -1) /\
      ((exists q, o <= q < o + total N n /\ stored_row f base sizes w q = None) -> rc = -1) /\
      forall i, (i < N)%nat -> exists p' um', res i = (rc, b i, p', um') /\
        (rc = 0 -> ptr_at sizes p' (o + total N n)) /\ (rc <> 0 -> p' = p i) /\
        (forall x, ~ in_elems (elem_addr (a i)) (itemsize me (a_dtype (a i))) 0 (n i * nm) x -> um' x = um i x))
    (launch (fun i => whole (mpi_read thr (e i) (world N) i (b i) (p i) (a i) (um i) conc)) f).
Proof. intros H1 H2. exact (ends_leads N _ f _ (lead_read_any f H1 H2)). Qed.
End Calls.
