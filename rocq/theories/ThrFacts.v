(* Collective reads and writes as a whole. *)
From Coq.Strings Require Import Byte String.
From Coq Require Import List ZArith Lia Bool ZifyBool ZifyNat.
From Verif Require Import Base BaseFacts Dtype Cast Array FS Fmt Attr Block Spec SeekFacts FSFacts ArrayFacts ConvFacts WriteFacts ReadFacts
  OpenFacts Par MpiSpec ParFacts SyncFacts VecFacts CollFacts Mpi SegFacts StepFacts HistFacts AggFacts LoopFacts.
Import ListNotations.
Open Scope Z_scope.
Ltac Zify.zify_post_hook ::= Z.div_mod_to_equations.

(* ------------------------------------------------------ offsets of segments *)
Section Offsets.
Variables (N : nat) (n : nat -> Z) (seg : nat -> Z).
Hypothesis Hn : forall i, (i < N)%nat -> 0 <= n i.
Hypothesis Hempty : forall i, (i < N)%nat -> n i = 0 -> seg i = Z.of_nat N + 1.
Hypothesis Hdata : forall i, (i < N)%nat -> 0 < n i -> 0 <= seg i < Z.of_nat N.
Hypothesis Hmono : forall i j, (i <= j)%nat -> (j < N)%nat -> 0 < n i -> 0 < n j -> seg i <= seg j.

Definition offs (i : nat) : Z := zsum (map n (seq 0 i)).
Definition smem (s : Z) : list nat := filter (fun j => seg j =? s) (seq 0 N).
Definition upto (s : Z) : list nat := filter (fun j => seg j <? s) (seq 0 N).
Definition ssum (s : Z) : Z := zsum (map n (smem s)).
Definition usum (s : Z) : Z := zsum (map n (upto s)).

Lemma smem_In s j : In j (smem s) <-> (j < N)%nat /\ seg j = s.
Proof. clear Hn Hempty Hdata Hmono n. unfold smem. rewrite filter_In, in_seq. split; intros [A B]; split; lia. Qed.
Lemma flat_step {B} (g : nat -> list B) s l : (forall j, In j l -> n j = 0 -> g j = []) -> (forall j, In j l -> (j < N)%nat) -> Sorting.Sorted.StronglySorted (fun i j => (i <= j)%nat) l ->
  flat_map g (filter (fun j => seg j <? s + 1) l) = flat_map g (filter (fun j => seg j <? s) l) ++ flat_map g (filter (fun j => seg j =? s) l).
Proof.
  intros Hg Hl HS. induction HS as [|x l HS IH HF]; [reflexivity|]. specialize (IH ltac:(intros; apply Hg; [right|]; auto) ltac:(intros; apply Hl; right; auto)).
  cbn [filter]. destruct (Z.lt_trichotomy (seg x) s) as [L|[L|L]].
  - replace (seg x <? s + 1) with true by lia. replace (seg x <? s) with true by lia. replace (seg x =? s) with false by lia. cbn [flat_map]. rewrite IH, app_assoc. reflexivity.
  - replace (seg x <? s + 1) with true by lia. replace (seg x <? s) with false by lia. replace (seg x =? s) with true by lia. cbn [flat_map]. rewrite IH.
    destruct (Z.eq_dec (n x) 0) as [E|E]; [rewrite (Hg x (or_introl eq_refl) E); reflexivity|]. pose proof (Hl x (or_introl eq_refl)) as Hx. pose proof (Hn x Hx).
    assert (X : flat_map g (filter (fun j => seg j <? s) l) = []).
    { assert (Y : forall j, In j (filter (fun j => seg j <? s) l) -> g j = []).
      { intros j Hj. apply filter_In in Hj. destruct Hj as [Hj Hs]. pose proof (Hl j (or_intror Hj)) as Hjn. apply (Hg j (or_intror Hj)). rewrite Forall_forall in HF. specialize (HF j Hj).
        destruct (Z.eq_dec (n j) 0) as [|Ej]; [assumption|]. pose proof (Hn j Hjn). pose proof (Hmono x j HF Hjn ltac:(lia) ltac:(lia)). lia. }
      clear -Y. induction (filter _ l) as [|y r IH]; [reflexivity|]. cbn. rewrite (Y y (or_introl eq_refl)). apply IH. intros; apply Y; right; auto. }
    rewrite X. reflexivity.
  - replace (seg x <? s + 1) with false by lia. replace (seg x <? s) with false by lia. replace (seg x =? s) with false by lia. exact IH.
Qed.
Lemma upto_step {B} (g : nat -> list B) s : (forall j, (j < N)%nat -> n j = 0 -> g j = []) -> flat_map g (upto (s + 1)) = flat_map g (upto s) ++ flat_map g (smem s).
Proof. intros Hg. apply flat_step; [intros j Hj; apply in_seq in Hj; apply Hg; lia|intros j Hj; apply in_seq in Hj; lia|apply seq_sorted]. Qed.
Lemma upto_all : upto (Z.of_nat N + 2) = seq 0 N.
Proof.
  unfold upto. rewrite <- (filter_all_true (seq 0 N)) at 2. apply filter_ext_in. intros j Hj. apply in_seq in Hj.
  destruct (Z.eq_dec (n j) 0) as [E|E]; [rewrite Hempty by lia; lia|]. pose proof (Hn j ltac:(lia)). pose proof (Hdata j ltac:(lia) ltac:(lia)). lia.
Qed.
Lemma upto_zero {B} (g : nat -> list B) : flat_map g (upto 0) = [].
Proof.
  assert (X : upto 0 = []); [|rewrite X; reflexivity]. unfold upto. apply filter_all_false. intros j Hj. apply in_seq in Hj.
  destruct (Z.eq_dec (n j) 0) as [E|E]; [rewrite Hempty by lia; lia|]. pose proof (Hn j ltac:(lia)). pose proof (Hdata j ltac:(lia) ltac:(lia)). lia.
Qed.
Lemma sum_flat l : (forall j, In j l -> 0 <= n j) -> zsum (map n l) = zlen (flat_map (fun j => repeat tt (Z.to_nat (n j))) l).
Proof. induction l as [|x l IH]; intros H; [reflexivity|]. cbn [map flat_map]. rewrite zsum_cons, zlen_app, IH by (intros; apply H; right; auto). unfold zlen at 2. rewrite repeat_length. pose proof (H x (or_introl eq_refl)). lia. Qed.
Lemma usum_step s : usum (s + 1) = usum s + ssum s.
Proof.
  assert (P : forall P0 j, In j (filter P0 (seq 0 N)) -> 0 <= n j) by (intros P0 j Hj; apply filter_In in Hj; destruct Hj as [Hj _]; apply in_seq in Hj; apply Hn; lia).
  unfold usum, ssum. rewrite !sum_flat by (intros j Hj; eapply P; exact Hj). rewrite upto_step, zlen_app; [reflexivity|]. intros j Hj E. rewrite E. reflexivity.
Qed.
Lemma ssum_nonneg s : 0 <= ssum s.
Proof. unfold ssum. apply zsum_nonneg. apply Forall_map. apply Forall_forall. intros j Hj. apply smem_In in Hj. apply Hn. apply Hj. Qed.
Lemma usum_mono s s' : s <= s' -> usum s <= usum s'.
Proof.
  intros H. replace s' with (s + Z.of_nat (Z.to_nat (s' - s))) by lia. generalize (Z.to_nat (s' - s)). induction n0 as [|m IH]; [rewrite Z.add_0_r; lia|].
  replace (s + Z.of_nat (S m)) with (s + Z.of_nat m + 1) by lia. rewrite usum_step. pose proof (ssum_nonneg (s + Z.of_nat m)). lia.
Qed.
Lemma usum_all : usum (Z.of_nat N + 2) = zsum (map n (seq 0 N)).
Proof. unfold usum. rewrite upto_all. reflexivity. Qed.
Lemma usum_zero : usum 0 = 0.
Proof. unfold usum. rewrite sum_flat, upto_zero; [reflexivity|]. intros j Hj. apply filter_In in Hj. destruct Hj as [Hj _]. apply in_seq in Hj. apply Hn. lia. Qed.
Lemma offs_range i : (i <= N)%nat -> 0 <= offs i <= zsum (map n (seq 0 N)).
Proof.
  intros Hi. unfold offs. replace N with (i + (N - i))%nat by lia. rewrite seq_app, map_app, zsum_app.
  assert (0 <= zsum (map n (seq 0 i)) /\ 0 <= zsum (map n (seq (0 + i) (N - i)))); [|lia].
  split; apply zsum_nonneg; apply Forall_map; apply Forall_forall; intros j Hj; apply in_seq in Hj; apply Hn; lia.
Qed.

(* The first member of a segment starts where the earlier segments end. *)
Lemma seg_offset s i0 rest : smem s = i0 :: rest -> 0 < n i0 -> offs i0 = usum s.
Proof.
  intros E P. assert (I0 : (i0 < N)%nat /\ seg i0 = s) by (apply smem_In; rewrite E; left; auto). destruct I0 as [L0 S0].
  pose proof (Hdata i0 L0 P) as D0.
  assert (First : forall j, (j < i0)%nat -> seg j <> s).
  { intros j Hj Es. assert (X : In j (smem s)) by (apply smem_In; split; [lia|exact Es]). rewrite E in X. destruct X as [X|X]; [lia|].
    assert (Srt : Sorting.Sorted.StronglySorted (fun i j => (i <= j)%nat) (smem s)).
    { unfold smem. generalize (seq_sorted N 0). generalize (seq 0 N). clear. intros l. induction 1 as [|x l HS IH HF]; [constructor|]. cbn. destruct (seg x =? s); auto. constructor; auto.
      rewrite Forall_forall in *. intros y Hy. apply filter_In in Hy. apply HF. apply Hy. }
    rewrite E in Srt. inversion_clear Srt as [|? ? S1 S2]. rewrite Forall_forall in S2. specialize (S2 j X). lia. }
  unfold usum, upto. replace N with (i0 + (N - i0))%nat by lia. rewrite seq_app, filter_app, map_app, zsum_app.
  assert (A : forall l, (forall j, In j l -> (j < i0)%nat) -> zsum (map n (filter (fun j => seg j <? s) l)) = zsum (map n l)).
  { induction l as [|x l IH]; intros H; [reflexivity|]. cbn [filter map]. rewrite zsum_cons, <- IH by (intros; apply H; right; auto). pose proof (H x (or_introl eq_refl)) as Hx. pose proof (Hn x ltac:(lia)) as Nx.
    destruct (Z.ltb_spec (seg x) s) as [L|L]; [cbn [map]; rewrite zsum_cons; reflexivity|].
    destruct (Z.eq_dec (n x) 0) as [Z0|Z0]; [lia|]. pose proof (Hmono x i0 ltac:(lia) L0 ltac:(lia) P). pose proof (First x Hx). lia. }
  assert (B : forall l, (forall j, In j l -> (i0 <= j < N)%nat) -> filter (fun j => seg j <? s) l = []).
  { intros l H. apply filter_all_false. intros j Hj. specialize (H j Hj). destruct (Z.eq_dec (n j) 0) as [Z0|Z0]; [rewrite Hempty by lia; lia|].
    pose proof (Hn j ltac:(lia)). pose proof (Hmono i0 j ltac:(lia) ltac:(lia) P ltac:(lia)). lia. }
  rewrite A by (intros j Hj; apply in_seq in Hj; lia). rewrite B by (intros j Hj; apply in_seq in Hj; lia). unfold offs. change (zsum (map n [])) with 0. lia.
Qed.
(* All members of a segment with data have data. *)
Lemma seg_all_data s : 0 < ssum s -> forall i, In i (smem s) -> 0 < n i.
Proof.
  intros H i Hi. destruct (sum_over_pos n (smem s) H) as (j & Hj & Pj). apply smem_In in Hj. destruct Hj as [Lj Sj]. pose proof (Hdata j Lj Pj).
  apply smem_In in Hi. destruct Hi as [Li Si]. pose proof (Hn i Li). destruct (Z.eq_dec (n i) 0) as [E|E]; [|lia]. rewrite (Hempty i Li E) in Si. lia.
Qed.
Lemma seg_start s i0 rest : smem s = i0 :: rest -> 0 < ssum s -> offs i0 = usum s.
Proof. intros E P. apply (seg_offset s i0 rest E). apply (seg_all_data s P). rewrite E. left. reflexivity. Qed.
(* The segment in which a bound is crossed. *)
Lemma crossing z : 0 <= z < zsum (map n (seq 0 N)) -> exists s, usum s <= z < usum (s + 1).
Proof.
  intros Hz. assert (G : forall m, z < usum (Z.of_nat m) -> exists s, usum s <= z < usum (s + 1)).
  { induction m as [|m IH]; intros H; [change (Z.of_nat 0) with 0 in H; rewrite usum_zero in H; lia|].
    destruct (Z_lt_le_dec z (usum (Z.of_nat m))) as [L|L]; [auto|]. exists (Z.of_nat m). replace (Z.of_nat m + 1) with (Z.of_nat (S m)) by lia. lia. }
  apply (G (N + 2)%nat). replace (Z.of_nat (N + 2)) with (Z.of_nat N + 2) by lia. rewrite usum_all. lia.
Qed.
End Offsets.

(* -------------------------------------------------- all segments of a call *)
Section Throttle.
Variables (N : nat) (me : endian) (e : nat -> env) (b : nat -> block) (p : nat -> bptr) (sizes : list Z) (w : Z) (base dt : bytes) (nm o : Z) (n : nat -> Z).
Hypothesis HN : (0 < N)%nat.
Hypothesis HC : coll_ok N me e b p sizes w base dt nm o n.
Variables (a : nat -> array) (um : nat -> mem) (limit ng : Z).
Hypothesis Hlim : 0 <= limit.
Hypothesis Hsmall : zsum (map n (seq 0 N)) < 2 ^ 31 \/ forall i, (i < N)%nat -> limit + n i < 2 ^ 31.
Notation total := (zsum (map n (seq 0 N))).
Notation seg := (segn N n limit ng).
Notation mems := (smem N seg).
Notation before := (upto N seg).
Notation T := (ssum N n seg).
Notation U := (usum N n seg).

Lemma t_n i : (i < N)%nat -> 0 <= n i. Proof. apply HC. Qed.
Lemma t_o : 0 <= o <= zsum sizes. Proof. apply (co_ptr _ _ _ _ _ _ _ _ _ _ _ _ HC 0%nat HN). Qed.
Lemma t_total : total < 2 ^ 63. Proof. pose proof (co_end _ _ _ _ _ _ _ _ _ _ _ _ HC). pose proof t_o. lia. Qed.
Lemma t_empty i : (i < N)%nat -> n i = 0 -> seg i = Z.of_nat N + 1. Proof. apply segn_empty; [exact t_n|exact t_total|exact Hlim]. Qed.
Lemma t_data i : (i < N)%nat -> 0 < n i -> 0 <= seg i < Z.of_nat N. Proof. intros Hi P. apply (segn_data N n limit ng t_n t_total Hlim i Hi P). Qed.
Lemma t_mono i j : (i <= j)%nat -> (j < N)%nat -> 0 < n i -> 0 < n j -> seg i <= seg j. Proof. apply segn_mono; [exact t_n|exact t_total|exact Hlim]. Qed.
Lemma t_range i : (i < N)%nat -> 0 <= seg i <= Z.of_nat N + 1. Proof. apply segn_range; [exact t_n|exact t_total|exact Hlim]. Qed.
Lemma t_U s : U (s + 1) = U s + T s. Proof. apply usum_step; first [exact t_n|exact t_empty|exact t_data|exact t_mono]. Qed.
Lemma t_Umono s s' : s <= s' -> U s <= U s'. Proof. apply usum_mono; first [exact t_n|exact t_empty|exact t_data|exact t_mono]. Qed.
Lemma t_U0 : U 0 = 0. Proof. apply usum_zero; first [exact t_n|exact t_empty|exact t_data|exact t_mono]. Qed.
Lemma t_Uall : U (Z.of_nat N + 2) = total. Proof. apply usum_all; first [exact t_n|exact t_empty|exact t_data|exact t_mono]. Qed.
Lemma t_T s : 0 <= T s. Proof. apply ssum_nonneg; first [exact t_n|exact t_empty|exact t_data|exact t_mono]. Qed.
Lemma t_Urange s : 0 <= s <= Z.of_nat N + 1 -> 0 <= U s /\ U s + T s <= total.
Proof. intros H. rewrite <- t_U, <- t_Uall, <- t_U0. split; apply t_Umono; lia. Qed.
Lemma t_w : 0 < w. Proof. apply (wb_wpos _ _ _ _ (co_block _ _ _ _ _ _ _ _ _ _ _ _ HC 0%nat HN)). Qed.
Lemma t_small i : (i < N)%nat -> T (seg i) < 2 ^ 31.
Proof.
  intros Hi. destruct Hsmall as [H|H].
  - pose proof (t_Urange _ (t_range i Hi)). lia.
  - pose proof (seg_bound N n limit ng t_n t_total Hlim (2 ^ 31 - 1 - limit) (seg i)) as B. pose proof (H 0%nat HN). pose proof (t_n 0%nat HN).
    specialize (B ltac:(lia)). assert (X : forall q, (q < N)%nat -> n q <= 2 ^ 31 - 1 - limit) by (intros q Hq; specialize (H q Hq); lia). specialize (B X). unfold ssum, smem, sum_over in *. lia.
Qed.

Variables (sg : nat -> segmenter) (ld : nat -> nat).
Hypothesis HSG : segs_ok N n limit ng sg ld.

Lemma t_mems i : (i < N)%nat -> c_mem (sg_segment (sg i)) = mems (seg i). Proof. intros Hi. apply (so_segmem _ _ _ _ _ _ HSG i Hi). Qed.
Lemma t_same i j : (i < N)%nat -> (j < N)%nat -> seg i = seg j -> sg_segment (sg j) = sg_segment (sg i) /\ sg_leader (sg j) = sg_leader (sg i) /\ ld j = ld i.
Proof.
  intros Hi Hj E. assert (M : In j (c_mem (sg_segment (sg i)))) by (rewrite t_mems by auto; apply smem_In; auto).
  destruct (so_segment _ _ _ _ _ _ HSG i Hi eq_refl) as (_ & _ & H). destruct (H j M) as [_ E1]. pose proof (so_same _ _ _ _ _ _ HSG i j Hi M) as E2. split; [exact E1|]. split; [exact E2|].
  pose proof (so_leader _ _ _ _ _ _ HSG i Hi) as L1. pose proof (so_leader _ _ _ _ _ _ HSG j Hj) as L2. rewrite E1, E2, L1 in L2. congruence.
Qed.
Lemma t_ld i : (i < N)%nat -> (ld i < N)%nat /\ seg (ld i) = seg i /\ ld (ld i) = ld i.
Proof.
  intros Hi. pose proof (so_leader _ _ _ _ _ _ HSG i Hi) as L. apply nth_error_In in L. rewrite t_mems in L by auto. apply smem_In in L. destruct L as [L1 L2]. split; [exact L1|]. split; [exact L2|].
  destruct (t_same i (ld i) Hi L1 (eq_sym L2)) as (_ & _ & X). exact X.
Qed.

(* The part of one segment. *)
Lemma one_seg act s f Q : (exists i, (i < N)%nat /\ seg i = s) ->
  (forall c k r off, family N (fun i => seg i =? s) (fun _ => c) -> c_mem c = mems s -> nth_error (c_mem c) k = Some r ->
     (forall i, (i < N)%nat -> seg i = s -> ld i = r) -> 0 <= off -> o + off + T s < 2 ^ 63 -> T s < 2 ^ 31 -> (0 < T s -> off = U s) ->
     does N (fun i => seg i =? s) (fun i => aggregated act (e i) c i k (b i) (p i) off (n i) (a i) (um i)) f Q) ->
  does N (fun i => seg i =? s) (fun i => mbind (bcast_int (sg_segment (sg i)) 0 8 (offs n i)) (fun offset =>
    aggregated act (e i) (sg_segment (sg i)) i (Z.to_nat (sg_leader (sg i))) (b i) (p i) offset (n i) (a i) (um i))) f Q.
Proof.
  intros (i0 & H0 & E0) H. set (c := sg_segment (sg i0)). set (k := Z.to_nat (sg_leader (sg i0))). set (r := ld i0).
  assert (Es : forall i, (i < N)%nat -> seg i = s -> sg_segment (sg i) = c /\ Z.to_nat (sg_leader (sg i)) = k /\ ld i = r).
  { intros i Hi E. destruct (t_same i0 i H0 Hi ltac:(congruence)) as (A & B & D). unfold c, k, r. rewrite A, B, D. auto. }
  assert (Em : c_mem c = mems s) by (unfold c; rewrite t_mems, E0; auto).
  assert (F : family N (fun i => seg i =? s) (fun _ => c)).
  { intros i Hi E. apply Z.eqb_eq in E. destruct (Es i Hi E) as (A & _). destruct (so_segment _ _ _ _ _ _ HSG i Hi eq_refl) as (B1 & B2 & _). rewrite A in B1, B2. split; [exact B1|]. split; [exact B2|].
    intros j Hj. rewrite Em in Hj. apply smem_In in Hj. split; [apply Z.eqb_eq; apply Hj|reflexivity]. }
  destruct (mems s) as [|h rest] eqn:Eh. { assert (X : In i0 (mems s)) by (apply smem_In; auto). rewrite Eh in X. destruct X. }
  assert (Hh : (h < N)%nat /\ seg h = s) by (apply smem_In; rewrite Eh; left; auto). destruct Hh as [Hh Sh].
  apply does_ext with (fun i => mbind (bcast_int c 0 8 (offs n i)) (fun offset => aggregated act (e i) c i k (b i) (p i) offset (n i) (a i) (um i))).
  { intros i Hi E. apply Z.eqb_eq in E. destruct (Es i Hi E) as (-> & -> & _). reflexivity. }
  apply does_bind with (fun l res f' => l = [] /\ f' = f /\ res = fun _ => offs n h).
  { apply does_bcast_int with (C := fun _ => c) (root := fun _ => 0%nat) (n := fun _ => 8) (z := offs n) (src := fun _ => h); auto.
    intros i Hi E. split; [rewrite Em; reflexivity|]. auto. }
  intros l res f' (-> & -> & ->). pose proof (offs_range N n seg t_n t_empty t_data t_mono h ltac:(lia)) as Ho. pose proof (co_end _ _ _ _ _ _ _ _ _ _ _ _ HC) as He.
  assert (Hs : 0 <= s <= Z.of_nat N + 1) by (rewrite <- E0; apply t_range; auto). pose proof (t_Urange s Hs) as Hu. pose proof (t_T s) as HT.
  assert (Hst : 0 < T s -> offs n h = U s) by (intros P; apply (seg_start N n seg t_n t_empty t_data t_mono s h rest Eh P)).
  eapply does_mono; [|apply (H c k r (offs n h) F)].
  - cbv beta. intros l res f' HQ. exact HQ.
  - exact Em.
  - pose proof (so_leader _ _ _ _ _ _ HSG i0 H0) as L. exact L.
  - intros i Hi E. apply (Es i Hi E).
  - lia.
  - destruct (Z.eq_dec (T s) 0) as [Z0|Z0]; [lia|]. rewrite Hst by lia. lia.
  - rewrite <- E0. apply t_small. exact H0.
  - exact Hst.
Qed.

Lemma t_crossing : zsum sizes < o + total -> exists x, U x <= zsum sizes - o < U (x + 1).
Proof. intros H. apply (crossing N n seg t_n t_empty t_data t_mono). pose proof t_o. lia. Qed.
Lemma t_active i s : (i < N)%nat -> seg i = s -> active sg s i = true.
Proof. intros Hi E. pose proof (so_bounds _ _ _ _ _ _ HSG i Hi). unfold active. lia. Qed.

(* ---------------------------------------------------------------- writing *)
Section Write.
Variables (d : nat -> bytes) (um1 : nat -> mem) (f0 : fs).
Hypothesis Hconv : forall i, (i < N)%nat -> exists rc lb1 il' ia',
  dtype_convert (e_me (e i)) (fresh (e i) (itemsize (e_me (e i)) (b_dtype (b i)) * b_nmemb (b i) * n i)) (iter_init (e_me (e i)) (chunk_array (e_me (e i)) (b i) (n i))) (um i) (iter_init (e_me (e i)) (a i))
    (Z.to_nat (n i * b_nmemb (b i))) = Ret (rc, lb1, il', um1 i, ia') /\ load lb1 0 (Z.to_nat (n i * w)) = Some (d i).

Definition rows_by (i : nat) : list bytes := group (Z.to_nat w) (Z.to_nat (n i)) (d i).
(* The handle of a rank after the write. *)
Definition after_write (i : nat) : block :=
  if (ld i =? i)%nat && (0 <? T (seg i)) then
    set_checksums (set_bdirty (b i) true) (add_sums (b_fchecksum (b i)) sizes (o + U (seg i)) (flat_map rows_by (mems (seg i))))
  else b i.
Definition in_range_write : Prop := o + total <= zsum sizes /\ rows_exist f0 base sizes o (o + total).

Record winv (s : Z) (l : list (nat * ParFacts.act)) (st : nat -> Z * block * mem) (f : fs) : Prop := {
  wi_rt : forall i, (i < N)%nat -> rts st i = 0 \/ rts st i = -1;
  wi_new : forall i, (i < N)%nat -> s <= seg i -> st_b (st i) = b i /\ st_um (st i) = um i;
  wi_old : forall i, (i < N)%nat -> like (b i) (st_b (st i)) /\ wblock (e i) (st_b (st i)) sizes w /\ (st_um (st i) = um i \/ st_um (st i) = um1 i);
  wi_files : same_files f0 f;
  wi_log : forall j x, In (j, x) l -> (j < N)%nat /\ ld j = j /\ 0 < T (seg j) /\
    row_write base sizes w (landing sizes o (U (seg j))) (landing sizes o (U (seg j)) + T (seg j)) x;
  wi_good : in_range_write -> (forall i, (i < N)%nat -> rts st i = 0) /\ fs_eq f (put_rows f0 base sizes w o (flat_map rows_by (before s))) /\
    forall i, (i < N)%nat -> seg i < s -> st i = (0, after_write i, um1 i);
  wi_bad : forall x, U x <= zsum sizes - o < U (x + 1) -> x < s -> exists i, (i < N)%nat /\ rts st i <> 0;
  wi_succ : (forall i, (i < N)%nat -> rts st i = 0) -> o + total <= zsum sizes -> rows_exist f0 base sizes o (o + U s)
}.

Lemma rows_by_len i : (i < N)%nat -> zlen (rows_by i) = n i.
Proof. intros Hi. unfold rows_by, zlen. rewrite group_length. pose proof (t_n i Hi). lia. Qed.
Lemma rows_by_empty i : (i < N)%nat -> n i = 0 -> rows_by i = [].
Proof. intros Hi E. pose proof (rows_by_len i Hi) as L. rewrite E in L. destruct (rows_by i); [reflexivity|]. unfold zlen in L. cbn in L. lia. Qed.
Lemma rows_before s : zlen (flat_map rows_by (before s)) = U s.
Proof. rewrite zlen_flat_map. unfold usum. f_equal. apply map_ext_in. intros j Hj. apply filter_In in Hj. destruct Hj as [Hj _]. apply in_seq in Hj. apply rows_by_len. lia. Qed.
Lemma rows_step s : flat_map rows_by (before (s + 1)) = flat_map rows_by (before s) ++ flat_map rows_by (mems s).
Proof. apply (upto_step N n seg t_n t_empty t_data t_mono). exact rows_by_empty. Qed.

Lemma good_landing s : 0 <= s <= Z.of_nat N + 1 -> o + total <= zsum sizes -> landing sizes o (U s) = o + U s.
Proof. intros Hs H. pose proof (t_Urange s Hs). pose proof (t_T s). unfold landing. replace (o + U s <=? zsum sizes) with true by lia. reflexivity. Qed.

Lemma winv_ext s l st st' f : (forall i, (i < N)%nat -> st i = st' i) -> winv s l st f -> winv s l st' f.
Proof.
  intros E [H1 H2 H3 H4 H5 H6 H7 H8]. constructor; auto.
  - intros i Hi. unfold rts. rewrite <- E by auto. apply H1; auto.
  - intros i Hi. rewrite <- E by auto. apply H2; auto.
  - intros i Hi. rewrite <- E by auto. apply H3; auto.
  - intros G. destruct (H6 G) as (A & B & D). split; [|split; [exact B|]].
    + intros i Hi. unfold rts. rewrite <- E by auto. apply A; auto.
    + intros i Hi. rewrite <- E by auto. apply D; auto.
  - intros x Hx Hs. destruct (H7 x Hx Hs) as (i & Hi & R). exists i. split; [exact Hi|]. unfold rts. rewrite <- E by auto. exact R.
  - intros A. apply H8. intros i Hi. specialize (A i Hi). unfold rts in *. rewrite E by auto. exact A.
Qed.

Lemma winv_agree s l st f : winv s l st f ->
  winv s l (fun i => if active sg s i then (verdict (sg_group (sg i)) (rts st), st_b (st i), st_um (st i)) else st i) f.
Proof.
  intros [H1 H2 H3 H4 H5 H6 H7 H8]. set (st' := fun i => _).
  assert (Eb : forall i, st_b (st' i) = st_b (st i) /\ st_um (st' i) = st_um (st i)) by (intros i; unfold st'; destruct (active sg s i); auto).
  assert (Gm : forall i, (i < N)%nat -> In i (c_mem (sg_group (sg i))) /\ forall j, In j (c_mem (sg_group (sg i))) -> (j < N)%nat).
  { intros i Hi. destruct (so_group _ _ _ _ _ _ HSG i Hi eq_refl) as ([_ L _] & M & _). auto. }
  assert (R0 : (forall i, (i < N)%nat -> rts st i = 0) -> forall i, (i < N)%nat -> rts st' i = 0).
  { intros R i Hi. unfold rts, st'. destruct (active sg s i); [|apply R; auto]. cbn. apply verdict_zero. intros j Hj. apply R. apply (Gm i Hi). exact Hj. }
  constructor; auto.
  - intros i Hi. unfold rts, st'. destruct (active sg s i); [|apply H1; auto]. unfold st_rt. cbn [fst]. unfold verdict. destruct (last_bad (c_mem (sg_group (sg i))) (rts st)) as [j|] eqn:El; [|auto].
    apply last_bad_in in El. apply H1. apply (Gm i Hi). apply El.
  - intros i Hi Hs. destruct (Eb i) as [-> ->]. apply H2; auto.
  - intros i Hi. destruct (Eb i) as [-> ->]. apply H3; auto.
  - intros G. destruct (H6 G) as (A & B & D). split; [apply R0; exact A|]. split; [exact B|]. intros i Hi Hs. pose proof (R0 A i Hi) as R. destruct (Eb i) as [E1 E2]. specialize (D i Hi Hs).
    rewrite D in E1, E2. unfold rts, st_rt, st_b, st_um in *. cbn [fst snd] in *. destruct (st' i) as [[x y] z]. cbn [fst snd] in *. congruence.
  - intros x Hx Hs. destruct (H7 x Hx Hs) as (i & Hi & R). exists i. split; [exact Hi|]. unfold rts, st'. destruct (active sg s i); [|exact R]. unfold st_rt. cbn [fst]. intros V.
    apply R. rewrite verdict_zero in V. apply V. apply (Gm i Hi).
  - intros A. apply H8. intros i Hi. specialize (A i Hi). unfold rts, st' in A. destruct (active sg s i); [|exact A]. unfold st_rt in A. cbn [fst] in A. rewrite verdict_zero in A. apply A. apply (Gm i Hi).
Qed.

Lemma winv_skip s l st f : winv s l st f -> (forall i, (i < N)%nat -> seg i = s -> rts st i <> 0) -> winv (s + 1) l st f.
Proof.
  intros [H1 H2 H3 H4 H5 H6 H7 H8] Hk. constructor; auto.
  - intros i Hi Hs. apply H2; auto. lia.
  - intros G. destruct (H6 G) as (A & B & D). assert (E : forall i, (i < N)%nat -> seg i <> s) by (intros i Hi X; apply (Hk i Hi X); apply A; auto).
    split; [exact A|]. split; [|intros i Hi Hs; apply D; auto; specialize (E i Hi); lia].
    rewrite rows_step. replace (mems s) with (@nil nat); [cbn [flat_map]; rewrite app_nil_r; exact B|]. symmetry. apply filter_all_false. intros j Hj. apply in_seq in Hj. specialize (E j ltac:(lia)). lia.
  - intros x Hx Hs. destruct (Z.eq_dec x s) as [->|Hne]; [|apply (H7 x Hx); lia].
    assert (P : 0 < T s) by (rewrite t_U in Hx; lia). destruct (sum_over_pos n (mems s) P) as (i & Hi & _). apply smem_In in Hi. destruct Hi as [Hi Es]. exists i. split; [exact Hi|]. apply Hk; auto.
  - intros A G. rewrite t_U. replace (T s) with 0; [rewrite Z.add_0_r; apply H8; auto|]. pose proof (t_T s) as HT0. destruct (Z.eq_dec (T s) 0) as [->|Z0]; [reflexivity|].
    destruct (sum_over_pos n (mems s) ltac:(change (0 < T s); lia)) as (i & Hi & _). apply smem_In in Hi. destruct Hi as [Hi Es]. exfalso. apply (Hk i Hi Es). apply A. exact Hi.
Qed.

Lemma winv_run s l st f : winv s l st f -> (exists i, (i < N)%nat /\ seg i = s) -> (forall i, (i < N)%nat -> seg i = s -> rts st i = 0) ->
  does N (fun i => seg i =? s) (seg_run AWrite e p n a sg (offs n) st) f (fun l' st' f' => winv (s + 1) (l ++ l') (fun i => if seg i =? s then st' i else st i) f').
Proof.
  intros [H1 H2 H3 H4 H5 H6 H7 H8] Hex Hz. unfold seg_run.
  apply does_ext with (fun i => mbind (bcast_int (sg_segment (sg i)) 0 8 (offs n i)) (fun offset =>
    aggregated AWrite (e i) (sg_segment (sg i)) i (Z.to_nat (sg_leader (sg i))) (b i) (p i) offset (n i) (a i) (um i))).
  { intros i Hi E. apply Z.eqb_eq in E. destruct (H2 i Hi ltac:(lia)) as [-> ->]. reflexivity. }
  apply one_seg; [exact Hex|]. intros c k r off HF Em Hr Hld Ho He Hs31 Hoff.
  assert (Hs : 0 <= s <= Z.of_nat N + 1) by (destruct Hex as (i & Hi & <-); apply t_range; auto).
  assert (ET : zsum (map n (c_mem c)) = T s) by (rewrite Em; reflexivity).
  assert (Hrm : (r < N)%nat /\ seg r = s). { apply nth_error_In in Hr. rewrite Em in Hr. apply smem_In in Hr. exact Hr. } destruct Hrm as [Rlt Rs].
  pose proof (Hld r Rlt Rs) as Rld.
  eapply does_mono; [|apply (agg_write N me e b p sizes w base dt nm o n HC a um (fun i => seg i =? s) c k r off HF)].
  2:{ destruct Hex as (i & Hi & E). exists i. split; [exact Hi|]. apply Z.eqb_eq. exact E. }
  2:{ exact Hr. } 2:{ rewrite ET. exact Hs31. } 2:{ exact Ho. } 2:{ rewrite ET. exact He. }
  2:{ intros i Hi _. apply Hconv. exact Hi. }
  cbv beta. rewrite ET. intros l' st' f' (rc & b' & HR & HSF & HL & HW & HLk & Hrc & Hzero & Hout & Hsucc & Hin).
  assert (Erow : seg_rows w n c d = flat_map rows_by (mems s)) by (unfold seg_rows; rewrite Em; reflexivity).
  assert (Hst' : forall i, (i < N)%nat -> seg i = s -> st' i = (rc, if (r =? i)%nat then b' else b i, um1 i)) by (intros i Hi E; apply HR; auto; apply Z.eqb_eq; auto).
  pose proof (t_T s) as HTs.
  constructor.
  - intros i Hi. unfold rts. destruct (Z.eqb_spec (seg i) s) as [E|E]; [rewrite Hst' by auto; exact Hrc|apply H1; auto].
  - intros i Hi Hs1. replace (seg i =? s) with false by lia. apply H2; auto. lia.
  - intros i Hi. destruct (Z.eqb_spec (seg i) s) as [E|E]; [|apply H3; auto]. rewrite Hst' by auto. unfold st_b, st_um. cbn [fst snd].
    destruct (Nat.eqb_spec r i) as [->|Hne]; [auto|]. split; [apply like_refl|]. split; [apply (co_block _ _ _ _ _ _ _ _ _ _ _ _ HC i Hi)|auto].
  - eapply same_files_trans; eauto.
  - intros j x Hj. apply in_app_or in Hj. destruct Hj as [Hj|Hj]; [apply H5; exact Hj|]. destruct (HL j x Hj) as [-> RW]. rewrite Rs. split; [exact Rlt|]. split; [exact Rld|].
    destruct (Z.eq_dec (T s) 0) as [Z0|Z0]; [destruct (Hzero Z0) as (_ & _ & _ & ->); destruct Hj|]. split; [lia|]. rewrite Hoff in RW by lia. exact RW.
  - intros G. pose proof G as [G1 G2]. destruct (H6 G) as (A & B & D).
    assert (Fin : rc = 0 /\ fs_eq f' (put_rows f base sizes w (o + U s) (flat_map rows_by (mems s))) /\ b' = after_write r).
    { destruct (Z.eq_dec (T s) 0) as [Z0|Z0].
      - destruct (Hzero Z0) as (-> & -> & -> & _). split; [reflexivity|]. split.
        + replace (flat_map rows_by (mems s)) with (@nil bytes); [apply fs_eq_refl|]. symmetry. assert (X : forall q, In q (mems s) -> n q = 0).
          { intros q Hq. pose proof Hq as Hq2. apply smem_In in Hq2. destruct Hq2 as [Q1 _]. pose proof (t_n q Q1). destruct (in_split _ _ Hq) as (l1 & l2 & Eq). unfold ssum in Z0. rewrite Eq, map_app, zsum_app in Z0. cbn [map] in Z0. rewrite zsum_cons in Z0.
            assert (Y : forall ll, incl ll (mems s) -> 0 <= zsum (map n ll)). { intros ll I. apply zsum_nonneg. apply Forall_map. apply Forall_forall. intros y Hy. apply I in Hy. apply smem_In in Hy. apply t_n. apply Hy. }
            pose proof (Y l1 ltac:(rewrite Eq; intros y Hy; apply in_or_app; auto)). pose proof (Y l2 ltac:(rewrite Eq; intros y Hy; apply in_or_app; right; right; auto)). lia. }
          assert (Y : forall q, In q (mems s) -> rows_by q = []). { intros q Hq. apply rows_by_empty; [apply smem_In in Hq; apply Hq|apply X; exact Hq]. }
          clear -Y. induction (mems s) as [|y q IH]; [reflexivity|]. cbn. rewrite (Y y (or_introl eq_refl)). apply IH. intros; apply Y; right; auto.
        + unfold after_write. rewrite Rs, Z0, andb_false_r. reflexivity.
      - pose proof (good_landing s Hs G1) as GL. pose proof (t_Urange s Hs) as UR. specialize (Hoff ltac:(lia)). subst off. rewrite GL in Hin.
        destruct (Hin ltac:(lia) ltac:(lia)) as (-> & HF' & ->); [apply (rows_same _ _ _ _ _ _ H4); intros r0 j q Hr0; apply (G2 r0 j q); lia|]. change (seg_rows w n c (fun i => d i)) with (seg_rows w n c d) in *. rewrite Erow in HF'. rewrite Erow. split; [reflexivity|]. split; [exact HF'|].
        unfold after_write. rewrite Rld, Nat.eqb_refl, Rs. replace (0 <? T s) with true by lia. reflexivity. }
    destruct Fin as (-> & FE & ->). split; [|split].
    + intros i Hi. unfold rts. destruct (Z.eqb_spec (seg i) s) as [E|E]; [rewrite Hst' by auto; reflexivity|apply A; auto].
    + rewrite rows_step, put_rows_app, rows_before. eapply fs_eq_trans; [exact FE|]. apply put_rows_ext. exact B.
    + intros i Hi Hs1. destruct (Z.eqb_spec (seg i) s) as [E|E]; [|apply D; auto; lia]. rewrite Hst' by auto. f_equal. f_equal.
      destruct (Nat.eqb_spec r i) as [->|Hne]; [reflexivity|]. unfold after_write. rewrite (Hld i Hi E). destruct (Nat.eqb_spec r i); [contradiction|]. reflexivity.
  - intros x Hx Hs1. destruct (Z.eq_dec x s) as [->|Hne].
    + exists r. split; [exact Rlt|]. unfold rts. rewrite Rs, Z.eqb_refl, Hst' by auto. unfold st_rt. cbn [fst].
      pose proof (t_U s). assert (P : 0 < T s) by lia. rewrite Hoff in Hout by lia. unfold landing in Hout. replace (o + U s <=? zsum sizes) with true in Hout by lia. destruct (Hout P ltac:(lia)) as (-> & _). discriminate.
    + destruct (H7 x Hx ltac:(lia)) as (i & Hi & R). exists i. split; [exact Hi|]. unfold rts. destruct (Z.eqb_spec (seg i) s) as [E|E]; [exfalso; apply R; apply Hz; auto|exact R].
  - intros A G1. assert (A0 : forall i, (i < N)%nat -> rts st i = 0).
    { intros i Hi. destruct (Z.eq_dec (seg i) s) as [E|E]; [apply Hz; auto|]. specialize (A i Hi). unfold rts in A. replace (seg i =? s) with false in A by lia. exact A. }
    specialize (H8 A0 G1). rewrite t_U. intros q j x Hq. destruct (Z_lt_le_dec q (o + U s)) as [L|L]; [apply H8; lia|].
    pose proof (good_landing s Hs G1) as GL. pose proof (t_Urange s Hs) as UR. specialize (Hoff ltac:(lia)). subst off. rewrite GL in Hsucc.
    pose proof (A r Rlt) as Ar. unfold rts in Ar. rewrite Rs, Z.eqb_refl, Hst' in Ar by auto. unfold st_rt in Ar. cbn [fst] in Ar. subst rc.
    apply (rows_same f f0 base sizes (o + U s) (o + U s + T s) (same_files_sym _ _ H4)); [apply Hsucc; auto; lia|lia].
Qed.
End Write.

(* ---------------------------------------------------------------- reading *)
Section Read.
Variables (f0 : fs) (okd : nat -> bytes -> Prop) (post : nat -> bytes -> mem -> Prop) (R : nat -> list bytes).
Hypothesis Hconv : forall i d lb1, (i < N)%nat -> zlen d = n i * w -> okd i d -> load lb1 0 (Z.to_nat (n i * w)) = Some d -> exists rc um' ia' lb' il',
  dtype_convert (e_me (e i)) (um i) (iter_init (e_me (e i)) (a i)) lb1 (iter_init (e_me (e i)) (chunk_array (e_me (e i)) (b i) (n i))) (Z.to_nat (n i * b_nmemb (b i))) = Ret (rc, um', ia', lb', il') /\ post i d um'.
(* The rows asked for are there: R i is what rank i should get. *)
Definition all_there : Prop := o + total <= zsum sizes /\ (forall i, (i < N)%nat -> zlen (R i) = n i) /\
  forall j v, nth_error (flat_map R (seq 0 N)) j = Some v -> stored_row f0 base sizes w (o + Z.of_nat j) = Some v.
Hypothesis Hok : (forall i d, (i < N)%nat -> zlen d = n i * w -> okd i d) \/ (all_there /\ forall i, (i < N)%nat -> okd i (concat (R i))).

Record rinv (s : Z) (l : list (nat * ParFacts.act)) (st : nat -> Z * block * mem) (f : fs) : Prop := {
  ri_rt : forall i, (i < N)%nat -> rts st i = 0 \/ rts st i = -1;
  ri_b : forall i, (i < N)%nat -> st_b (st i) = b i;
  ri_new : forall i, (i < N)%nat -> s <= seg i -> st_um (st i) = um i;
  ri_old : forall i, (i < N)%nat -> seg i < s -> (st_um (st i) = um i /\ rts st i <> 0) \/ exists d, zlen d = n i * w /\ okd i d /\ post i d (st_um (st i)) /\ (all_there -> d = concat (R i));
  ri_fs : f = f0;
  ri_log : forall j x, In (j, x) l -> some_read x;
  ri_good : all_there -> forall i, (i < N)%nat -> rts st i = 0;
  ri_bad : forall x, U x <= zsum sizes - o < U (x + 1) -> x < s -> exists i, (i < N)%nat /\ rts st i <> 0;
  ri_missing : forall x q, U x <= q - o < U (x + 1) -> q < zsum sizes -> stored_row f0 base sizes w q = None -> x < s -> o + U (x + 1) <= zsum sizes -> exists i, (i < N)%nat /\ rts st i <> 0
}.

Lemma rinv_ext s l st st' f : (forall i, (i < N)%nat -> st i = st' i) -> rinv s l st f -> rinv s l st' f.
Proof.
  intros E [H1 H2 H3 H4 H5 H6 H7 H8 H9].
  assert (Er : forall i, (i < N)%nat -> rts st' i = rts st i) by (intros i Hi; unfold rts; rewrite E by auto; reflexivity).
  constructor; auto.
  - intros i Hi. rewrite Er by auto. auto.
  - intros i Hi. rewrite <- E by auto. auto.
  - intros i Hi. rewrite <- E by auto. auto.
  - intros i Hi. rewrite Er, <- E by auto. auto.
  - intros G i Hi. rewrite Er by auto. auto.
  - intros x Hx Hs. destruct (H8 x Hx Hs) as (i & Hi & Z0). exists i. rewrite Er; auto.
  - intros x q A1 A2 A3 A4 A5. destruct (H9 x q A1 A2 A3 A4 A5) as (i & Hi & Z0). exists i. rewrite Er; auto.
Qed.
Lemma rinv_agree s l st f : rinv s l st f ->
  rinv s l (fun i => if active sg s i then (verdict (sg_group (sg i)) (rts st), st_b (st i), st_um (st i)) else st i) f.
Proof.
  intros [H1 H2 H3 H4 H5 H6 H7 H8 H9]. set (st' := fun i => _).
  assert (Eb : forall i, st_b (st' i) = st_b (st i) /\ st_um (st' i) = st_um (st i)) by (intros i; unfold st'; destruct (active sg s i); auto).
  assert (Gm : forall i, (i < N)%nat -> In i (c_mem (sg_group (sg i))) /\ forall j, In j (c_mem (sg_group (sg i))) -> (j < N)%nat).
  { intros i Hi. destruct (so_group _ _ _ _ _ _ HSG i Hi eq_refl) as ([_ L _] & M & _). auto. }
  assert (Nz : forall i, (i < N)%nat -> rts st i <> 0 -> rts st' i <> 0).
  { intros i Hi Z0. unfold rts, st'. destruct (active sg s i); [|exact Z0]. unfold st_rt. cbn [fst]. intros V. apply Z0. rewrite verdict_zero in V. apply V. apply (Gm i Hi). }
  constructor; auto.
  - intros i Hi. unfold rts, st'. destruct (active sg s i); [|apply H1; auto]. unfold st_rt. cbn [fst]. unfold verdict. destruct (last_bad (c_mem (sg_group (sg i))) (rts st)) as [j|] eqn:El; [|auto].
    apply last_bad_in in El. apply H1. apply (Gm i Hi). apply El.
  - intros i Hi. destruct (Eb i) as [-> _]. auto.
  - intros i Hi Hs. destruct (Eb i) as [_ ->]. auto.
  - intros i Hi Hs. destruct (Eb i) as [_ ->]. destruct (H4 i Hi Hs) as [[A B]|A]; [left; auto|right; exact A].
  - intros G i Hi. specialize (H7 G). unfold rts, st'. destruct (active sg s i); [|apply H7; auto]. unfold st_rt. cbn [fst]. apply verdict_zero. intros j Hj. apply H7. apply (Gm i Hi). exact Hj.
  - intros x Hx Hs. destruct (H8 x Hx Hs) as (i & Hi & Z0). exists i. auto.
  - intros x q A1 A2 A3 A4 A5. destruct (H9 x q A1 A2 A3 A4 A5) as (i & Hi & Z0). exists i. auto.
Qed.
Lemma seg_member x : U x < U (x + 1) -> exists i, (i < N)%nat /\ seg i = x.
Proof. intros H. assert (P : 0 < T x) by (rewrite t_U in H; lia). destruct (sum_over_pos n (mems x) P) as (i & Hi & _). apply smem_In in Hi. exists i. exact Hi. Qed.
Lemma rinv_skip s l st f : rinv s l st f -> (forall i, (i < N)%nat -> seg i = s -> rts st i <> 0) -> rinv (s + 1) l st f.
Proof.
  intros [H1 H2 H3 H4 H5 H6 H7 H8 H9] Hk. constructor; auto.
  - intros i Hi Hs. apply H3; auto. lia.
  - intros i Hi Hs. destruct (Z.eq_dec (seg i) s) as [E|E]; [left; split; [apply H3; auto; lia|apply Hk; auto]|apply H4; auto; lia].
  - intros x Hx Hs. destruct (Z.eq_dec x s) as [->|Hne]; [|apply (H8 x Hx); lia]. destruct (seg_member s ltac:(lia)) as (i & Hi & E). exists i. auto.
  - intros x q A1 A2 A3 A4 A5. destruct (Z.eq_dec x s) as [->|Hne]; [|apply (H9 x q A1 A2 A3 ltac:(lia) A5)]. destruct (seg_member s ltac:(lia)) as (i & Hi & E). exists i. auto.
Qed.
Lemma R_before s : all_there -> zlen (flat_map R (before s)) = U s.
Proof. intros (_ & A & _). rewrite zlen_flat_map. unfold usum. f_equal. apply map_ext_in. intros j Hj. apply filter_In in Hj. destruct Hj as [Hj _]. apply in_seq in Hj. apply A. lia. Qed.
Lemma R_empty : all_there -> forall i, (i < N)%nat -> n i = 0 -> R i = [].
Proof. intros (_ & A & _) i Hi E. specialize (A i Hi). rewrite E in A. destruct (R i); [reflexivity|]. unfold zlen in A. cbn in A. lia. Qed.
Lemma R_step s : all_there -> flat_map R (before (s + 1)) = flat_map R (before s) ++ flat_map R (mems s).
Proof. intros H. apply (upto_step N n seg t_n t_empty t_data t_mono). apply R_empty. exact H. Qed.
Lemma R_prefix : all_there -> forall m : nat, exists rest, flat_map R (before (Z.of_nat N + 2)) = flat_map R (before (Z.of_nat N + 2 - Z.of_nat m)) ++ rest.
Proof.
  intros H. induction m as [|m (rest & IH)]; [exists []; rewrite app_nil_r; do 2 f_equal; lia|]. exists (flat_map R (mems (Z.of_nat N + 2 - Z.of_nat (S m))) ++ rest).
  rewrite IH. replace (Z.of_nat N + 2 - Z.of_nat m) with (Z.of_nat N + 2 - Z.of_nat (S m) + 1) by lia. rewrite R_step, <- app_assoc by exact H. reflexivity.
Qed.
Lemma R_seg s : 0 <= s <= Z.of_nat N + 1 -> all_there -> forall j v, nth_error (flat_map R (mems s)) j = Some v -> stored_row f0 base sizes w (o + U s + Z.of_nat j) = Some v.
Proof.
  intros Hs H j v Hj. pose proof H as (_ & _ & A). destruct (R_prefix H (Z.to_nat (Z.of_nat N + 2 - (s + 1)))) as (rest & E). rewrite (upto_all N n seg t_n t_empty t_data t_mono) in E.
  replace (Z.of_nat N + 2 - Z.of_nat (Z.to_nat (Z.of_nat N + 2 - (s + 1)))) with (s + 1) in E by lia. rewrite R_step in E by exact H. rewrite <- app_assoc in E.
  pose proof (R_before s H) as L. unfold zlen in L. replace (o + U s + Z.of_nat j) with (o + Z.of_nat (length (flat_map R (before s)) + j)) by lia. apply A. rewrite E.
  rewrite nth_error_app2 by lia. replace (length (flat_map R (before s)) + j - length (flat_map R (before s)))%nat with j by lia. rewrite nth_error_app1; [exact Hj|]. apply nth_error_Some. rewrite Hj. discriminate.
Qed.

Lemma rinv_run s l st f : rinv s l st f -> (exists i, (i < N)%nat /\ seg i = s) -> (forall i, (i < N)%nat -> seg i = s -> rts st i = 0) ->
  does N (fun i => seg i =? s) (seg_run ARead e p n a sg (offs n) st) f (fun l' st' f' => rinv (s + 1) (l ++ l') (fun i => if seg i =? s then st' i else st i) f').
Proof.
  intros [H1 H2 H3 H4 H5 H6 H7 H8 H9] Hex Hz. unfold seg_run. subst f.
  apply does_ext with (fun i => mbind (bcast_int (sg_segment (sg i)) 0 8 (offs n i)) (fun offset =>
    aggregated ARead (e i) (sg_segment (sg i)) i (Z.to_nat (sg_leader (sg i))) (b i) (p i) offset (n i) (a i) (um i))).
  { intros i Hi E. apply Z.eqb_eq in E. rewrite H2 by auto. rewrite H3 by (auto; lia). reflexivity. }
  apply one_seg; [exact Hex|]. intros c k r off HF Em Hr Hld Ho He Hs31 Hoff.
  assert (Hs : 0 <= s <= Z.of_nat N + 1) by (destruct Hex as (i & Hi & <-); apply t_range; auto).
  assert (ET : zsum (map n (c_mem c)) = T s) by (rewrite Em; reflexivity).
  assert (Hrm : (r < N)%nat /\ seg r = s). { apply nth_error_In in Hr. rewrite Em in Hr. apply smem_In in Hr. exact Hr. } destruct Hrm as [Rlt Rs].
  pose proof (t_T s) as HTs. pose proof (t_Urange s Hs) as UR. pose proof t_o as Hor.
  assert (Av : all_there -> avail sizes w base o n c off f0 R).
  { intros G. pose proof G as (G1 & G2 & G3). unfold avail. rewrite ET, Em. split; [|split].
    - destruct (Z.eq_dec (T s) 0) as [Z0|Z0]; [unfold landing; destruct (o + off <=? zsum sizes) eqn:X; lia|]. rewrite Hoff by lia. unfold landing. replace (o + U s <=? zsum sizes) with true by lia. lia.
    - intros i Hi. apply smem_In in Hi. apply G2. apply Hi.
    - intros j v Hj. destruct (Z.eq_dec (T s) 0) as [Z0|Z0].
      + exfalso. assert (L : zlen (flat_map R (mems s)) = 0).
        { rewrite zlen_flat_map, <- Z0. unfold ssum. f_equal. apply map_ext_in. intros q Hq. apply smem_In in Hq. apply G2. apply Hq. }
        destruct (flat_map R (mems s)); [destruct j; discriminate|]. unfold zlen in L. cbn in L. lia.
      + rewrite Hoff by lia. unfold landing. replace (o + U s <=? zsum sizes) with true by lia. apply R_seg; auto. }
  eapply does_mono; [|apply (agg_read N me e b p sizes w base dt nm o n HC a um (fun i => seg i =? s) c k r off HF) with (okd := okd) (post := post) (R := R)].
  2:{ destruct Hex as (i & Hi & E). exists i. split; [exact Hi|]. apply Z.eqb_eq. exact E. }
  2:{ exact Hr. } 2:{ rewrite ET. exact Hs31. } 2:{ exact Ho. } 2:{ rewrite ET. exact He. }
  2:{ intros i d0 lb1 Hi _. apply Hconv. exact Hi. }
  2:{ destruct Hok as [K|[K1 K2]]; [left; intros i d0 Hi; rewrite Em in Hi; apply smem_In in Hi; apply K; apply Hi|]. right. split; [apply Av; exact K1|]. intros i Hi. rewrite Em in Hi. apply smem_In in Hi. apply K2. apply Hi. }
  cbv beta. rewrite ET. intros l' st' f' (-> & HL & rc & HR & Hrc & Hzero & Hout & Hmiss & Hav).
  assert (Hst' : forall i, (i < N)%nat -> seg i = s -> exists um' d, st' i = (rc, b i, um') /\ zlen d = n i * w /\ okd i d /\ post i d um' /\ (avail sizes w base o n c off f0 R -> d = concat (R i))) by (intros i Hi E; apply HR; auto; apply Z.eqb_eq; auto).
  assert (Hrt' : forall i, (i < N)%nat -> seg i = s -> rts st' i = rc) by (intros i Hi E; destruct (Hst' i Hi E) as (u & d & X & _); unfold rts; rewrite X; reflexivity).
  constructor.
  - intros i Hi. unfold rts. destruct (Z.eqb_spec (seg i) s) as [E|E]; [|apply H1; auto]. pose proof (Hrt' i Hi E) as X. unfold rts in X. rewrite X. exact Hrc.
  - intros i Hi. destruct (Z.eqb_spec (seg i) s) as [E|E]; [|apply H2; auto]. destruct (Hst' i Hi E) as (u & d & -> & _). reflexivity.
  - intros i Hi Hs1. replace (seg i =? s) with false by lia. apply H3; auto. lia.
  - intros i Hi Hs1. unfold rts. destruct (Z.eqb_spec (seg i) s) as [E|E]; [|apply H4; auto; lia]. destruct (Hst' i Hi E) as (u & d & -> & D1 & D2 & D3 & D4). right. exists d. split; [exact D1|]. split; [exact D2|]. split; [exact D3|]. intros G. apply D4. apply Av. exact G.
  - reflexivity.
  - intros j x Hj. apply in_app_or in Hj. destruct Hj as [Hj|Hj]; [apply (H6 j); exact Hj|apply (HL j x Hj)].
  - intros G i Hi. unfold rts. destruct (Z.eqb_spec (seg i) s) as [E|E]; [|apply H7; auto]. pose proof (Hrt' i Hi E) as X. unfold rts in X. rewrite X. apply Hav. apply Av. exact G.
  - intros x Hx Hs1. destruct (Z.eq_dec x s) as [->|Hne].
    + exists r. split; [exact Rlt|]. unfold rts. rewrite Rs, Z.eqb_refl. pose proof (Hrt' r Rlt Rs) as X. unfold rts in X. rewrite X.
      pose proof (t_U s). assert (P : 0 < T s) by lia. rewrite Hoff in Hout by lia. unfold landing in Hout. replace (o + U s <=? zsum sizes) with true in Hout by lia. rewrite (Hout P ltac:(lia)). discriminate.
    + destruct (H8 x Hx ltac:(lia)) as (i & Hi & Z0). exists i. split; [exact Hi|]. unfold rts. destruct (Z.eqb_spec (seg i) s) as [E|E]; [exfalso; apply Z0; apply Hz; auto|exact Z0].
  - intros x q A1 A2 A3 A4 A5. destruct (Z.eq_dec x s) as [->|Hne].
    + exists r. split; [exact Rlt|]. unfold rts. rewrite Rs, Z.eqb_refl. pose proof (Hrt' r Rlt Rs) as X. unfold rts in X. rewrite X.
      pose proof (t_U s). assert (P : 0 < T s) by lia. rewrite Hoff in Hmiss by lia. unfold landing in Hmiss. replace (o + U s <=? zsum sizes) with true in Hmiss by lia. rewrite (Hmiss P); [discriminate|]. exists q. split; [lia|exact A3].
    + destruct (H9 x q A1 A2 A3 ltac:(lia) A5) as (i & Hi & Z0). exists i. split; [exact Hi|]. unfold rts. destruct (Z.eqb_spec (seg i) s) as [E|E]; [exfalso; apply Z0; apply Hz; auto|exact Z0].
Qed.
End Read.
End Throttle.
