(* Proofs about sessions through FileMPI. *)
From Coq.Strings Require Import Byte String.
From Coq Require Import List ZArith Lia Bool ZifyBool ZifyNat Relations.
From Verif Require Import Base BaseFacts Dtype Cast Array FS Fmt Attr Block File Split Pack Spec AttrSpec OpenSpec PackSpec HistSpec FileSpec Py PySpec
  ReopenFacts DtypeFacts ArrayFacts SeekFacts FSFacts ConvFacts WriteFacts ReadFacts IOFacts OpenFacts AttrFacts PackFacts FrameFacts Par MpiSpec ParFacts SyncFacts VecFacts CollFacts Mpi
  SegFacts StepFacts TableFacts HistFacts AggFacts LoopFacts MpiFacts LeadFacts AgreeFacts HandleFacts CHistSpec CHistFacts MiscFacts FileFacts RecNewFacts PyFacts PyNewFacts MpiPy MpiPyFacts MpiSess MpiSessSpec.
Import ListNotations.
Open Scope Z_scope.
Ltac Zify.zify_post_hook ::= Z.div_mod_to_equations.

Section AllAt.
Variables (N : nat) (me : endian) (e : nat -> env) (base dt : bytes) (nmemb : Z) (sizes : list Z).
Hypothesis HN : (0 < N)%nat.
Hypothesis Hme : forall i, (i < N)%nat -> e_me (e i) = me.
Let w := itemsize me dt * nmemb.
Hypothesis Hnm31 : 0 < nmemb < 2 ^ 31.
Hypothesis Hwc : forall i, (i < N)%nat -> w <= e_chunk (e i).
Hypothesis Hw31 : w < 2 ^ 31.
Hypothesis Hdt : dt_ok me dt.

Record put_at (o : Z) (rows : nat -> list bytes) (b : nat -> block) (f : fs) (k : nat) (l : list (nat * act)) (res : nat -> pyres unit * block) (g : fs) : Prop := {
  ap_fs2 : fs_eq g (put_rows f base sizes w o (flat_map rows (seq 0 k)));
  ap_acts2 : forall j a, In (j, a) l -> (j < k)%nat /\ row_write base sizes w (o + before (fun i => zlen (rows i)) j) (o + before (fun i => zlen (rows i)) (S j)) a;
  ap_res2 : forall i, (i < k)%nat -> exists b', res i = (PyRet tt, b') /\ ours (e i) base dt nmemb sizes b' /\ like (b i) b' /\
    b_fchecksum b' = add_sums (b_fchecksum (b i)) sizes (o + before (fun i => zlen (rows i)) i) (rows i) /\ (rows i <> [] -> b_dirty b' = true) /\ (rows i = [] -> b' = b i)
}.

Lemma chunks_at o d rows (alloc : nat -> Z -> Z * mem) L b f : dtype_normalize me d = dt -> 0 <= o -> (forall i, (i < N)%nat -> 0 < L i) -> (forall i, (i < N)%nat -> Forall (fun v => length v = Z.to_nat w) (rows i)) ->
  o + total N (fun i => zlen (rows i)) <= zsum sizes -> (forall i, (i < N)%nat -> ours (e i) base dt nmemb sizes (b i)) -> files_exist f base sizes ->
  does N (fun _ => true) (fun i => pm_chunks (e i) (alloc i) (b i) d nmemb (rows i) (o + before (fun i => zlen (rows i)) i) 0 (L i) (S (length (rows i)))) f (put_at o rows b f N).
Proof.
  intros Ed Ho0 HL HF Hs Hb Hfe. set (n := fun i => zlen (rows i)) in *. assert (Hn : forall i, 0 <= n i) by (intros i; apply zlen_nonneg).
  apply (does_each N (fun i => (PyRet tt, b i))).
  - intros k l r r' g Er []. constructor; auto. intros i Hi. rewrite <- Er by exact Hi. auto.
  - constructor; [apply fs_eq_refl|intros j a []|intros i Hi; lia].
  - intros k l r g Hk [A1 A2 A3].
    assert (Hw' : itemsize (e_me (e k)) dt * nmemb = w) by (rewrite (Hme k Hk); reflexivity).
    assert (Hbk : 0 <= before n k). { pose proof (before_le n Hn 0 k ltac:(lia)) as X. exact X. }
    assert (Hbn : before n (S k) <= total N n) by (change (total N n) with (before n N); apply before_le; [exact Hn|lia]). rewrite before_S in Hbn.
    eapply does_mono; [|apply (chunks_put N k (e k) base dt nmemb sizes Hk Hnm31) with (L := L k)]; rewrite ?Hw', ?(Hme k Hk); auto.
    + cbv beta. change (skipn (Z.to_nat 0) (rows k)) with (rows k). replace (o + before n k + Z.min 0 (zlen (rows k))) with (o + before n k) by (pose proof (Hn k); unfold n in *; lia).
      intros l' r' g' (b' & R & PB). constructor.
      * rewrite seq_S, flat_map_app. cbn [flat_map Nat.add]. rewrite app_nil_r, put_rows_app, zlen_rows. fold n. eapply fs_eq_trans; [rewrite <- Hw'; apply PB|]. rewrite Hw'. apply put_rows_ext. exact A1.
      * intros j a Hj. apply in_app_iff in Hj. destruct Hj as [Hj|Hj]; [apply A2 in Hj; destruct Hj; split; [lia|assumption]|].
        destruct (pb_acts _ _ _ _ _ _ _ _ _ _ _ _ _ PB j a Hj) as [-> RW]. split; [lia|]. rewrite before_S, Z.add_assoc. rewrite Hw' in RW. exact RW.
      * intros i Hi. destruct (Nat.eqb_spec i k) as [->|Hne]; [|apply A3; lia]. exists b'. split; [exact R|]. split; [apply PB|]. split; [apply PB|]. split; [apply PB|]. split; apply PB.
    + lia.
    + change (n k) with (zlen (rows k)) in Hbn. lia.
    + unfold zlen. lia.
    + lia.
    + eapply files_ext; [apply fs_eq_sym; exact A1|]. apply put_rows_files. exact Hfe.
Qed.
Lemma put_at_good O rows b f l res g : Forall (fun s => 0 <= s) sizes -> zlen sizes < 2 ^ 31 -> 0 < w -> put_at O rows b f N l res g -> good fs_eq l.
Proof.
  intros H1 H2 H3 [_ A _]. split.
  - intros i o Hi. destruct (A i o Hi) as [_ RW]. apply row_write_some in RW. destruct RW as (p & pos & l0 & ->). apply op_write_respects.
  - intros i o j o' Hi Hj Hne. destruct (A i o Hi) as [_ RW]. destruct (A j o' Hj) as [_ RW']. eapply row_writes_commute; eauto.
    assert (Hn : forall i, 0 <= zlen (rows i)) by (intros; apply zlen_nonneg).
    destruct (Nat.lt_ge_cases i j); [left; apply Z.add_le_mono_l, before_le; [exact Hn|lia]|right; apply Z.add_le_mono_l, before_le; [exact Hn|lia]].
Qed.

End AllAt.

(* What the ranks have recorded together. *)
Lemma recorded_at N o sizes (rows : nat -> list bytes) (b b' : nat -> block) j : (j < length sizes)%nat ->
  (forall i, (i < N)%nat -> (length (b_fchecksum (b i)) = S (length sizes)) /\ Forall (fun c => 0 <= c < 2 ^ 32) (b_fchecksum (b i)) /\
     b_fchecksum (b' i) = add_sums (b_fchecksum (b i)) sizes (o + before (fun i => zlen (rows i)) i) (rows i)) ->
  recorded N b' j mod 2 ^ 32 = (recorded N b j + bytes_into sizes j o (flat_map rows (seq 0 N))) mod 2 ^ 32.
Proof.
  intros Hj H. unfold recorded.
  assert (G : forall k, (k <= N)%nat -> zsum (map (fun i => nth j (b_fchecksum (b' i)) 0) (seq 0 k)) mod 2 ^ 32 =
     (zsum (map (fun i => nth j (b_fchecksum (b i)) 0) (seq 0 k)) + bytes_into sizes j o (flat_map rows (seq 0 k))) mod 2 ^ 32).
  { induction k as [|k IH]; intros Hk; [reflexivity|]. specialize (IH ltac:(lia)). destruct (H k ltac:(lia)) as (L & R & E).
    rewrite seq_S, !map_app, !zsum_app, flat_map_app, bytes_into_app, zlen_rows. cbn [map flat_map Nat.add]. rewrite !zsum_cons, app_nil_r. change (zsum []) with 0. rewrite !Z.add_0_r.
    rewrite E. rewrite (add_sums_nth sizes (rows k) j _ _ (nth j (b_fchecksum (b k)) 0)); [|rewrite L; lia|].
    2:{ symmetry. apply Z.mod_small. rewrite Forall_forall in R. apply R. apply nth_In. lia. }
    set (x := zsum (map (fun i => nth j (b_fchecksum (b' i)) 0) (seq 0 k))) in *. set (y := zsum (map (fun i => nth j (b_fchecksum (b i)) 0) (seq 0 k))) in *.
    set (u := bytes_into sizes j o _) in *. set (v := bytes_into sizes j _ (rows k)). set (c := nth j (b_fchecksum (b k)) 0).
    rewrite Zplus_mod_idemp_r, <- Zplus_mod_idemp_l, IH, Zplus_mod_idemp_l. f_equal. lia. }
  apply (G N). lia.
Qed.
Lemma recorded_same N (b : nat -> block) j c : (forall i, (i < N)%nat -> nth j (b_fchecksum (b i)) 0 = c) -> recorded N b j = Z.of_nat N * c.
Proof.
  intros H. unfold recorded. assert (G : forall k, (k <= N)%nat -> zsum (map (fun i => nth j (b_fchecksum (b i)) 0) (seq 0 k)) = Z.of_nat k * c); [|apply G; lia].
  induction k as [|k IH]; intros Hk; [reflexivity|]. rewrite seq_S, map_app, zsum_app, IH by lia. cbn [map Nat.add]. rewrite zsum_cons, H by lia. change (zsum []) with 0. lia.
Qed.

Section Sess.
Variables (N : nat) (me : endian) (e : nat -> env) (bf nm d : bytes) (nmemb : Z).
Hypothesis HN : (0 < N)%nat.
Hypothesis Hme : forall i, (i < N)%nat -> e_me (e i) = me.
Let base := path_join bf nm.
Let dt := dtype_normalize me d.
Let w := itemsize me dt * nmemb.
Hypothesis Hbn : block_name base.
Hypothesis Hty : header_type dt.
Hypothesis Hnm31 : 0 < nmemb < 2 ^ 31.
Hypothesis Hwc : forall i, (i < N)%nat -> w <= e_chunk (e i).
Hypothesis Hw31 : w < 2 ^ 31.
Hypothesis Hdt : dt_ok me dt.
Hypothesis Hnb : nul_free base.
Notation cinv := (cinv N me e base dt nmemb w).

(* Every rank has written its rows. *)
Lemma put_cinv t f g o rows (b b' : nat -> block) : let all := flat_map rows (seq 0 N) in
  cinv t f b -> 0 <= o -> o + zlen all <= t_size t -> Forall (fun v => length v = Z.to_nat w) all ->
  fs_eq g (put_rows f base (t_sizes t) w o all) ->
  (forall i, (i < N)%nat -> ours (e i) base dt nmemb (t_sizes t) (b' i) /\ like (b i) (b' i)) ->
  cinv (with_rows t o all) g b'.
Proof.
  intros all I Ho Hin Wr Eg HB.
  pose proof (ci_wb _ _ _ _ _ _ _ _ _ _ I 0%nat HN) as W0.
  destruct (ci_v _ _ _ _ _ _ _ _ _ _ I) as (v & ts & Iv & Dv).
  assert (HK : forall i, (i < N)%nat -> like (b i) (b' i)) by (intros i Hi; apply (HB i Hi)).
  assert (HWb : forall i, (i < N)%nat -> wblock (e i) (b' i) (t_sizes t) w) by (intros i Hi; destruct (HB i Hi) as ([_ _ _ X] & _); rewrite (Hme i Hi) in X; exact X).
  constructor.
  - intros i Hi. apply (HB i Hi).
  - intros i Hi. apply (HB i Hi).
  - intros i Hi. apply (HB i Hi).
  - exact HWb.
  - exists v, ts. split; [apply (hinv_rows _ _ _ _ _ (resum t ts) f g v o all); auto; lia|]. intros D. destruct (Dv D) as (i & Hi & Di). exists i. split; [exact Hi|]. destruct (like_fields _ _ (HK i Hi)) as (_ & _ & _ & _ & _ & X & _). apply X. exact Di.
  - eapply like_handle; [apply (HK 0%nat HN)|apply (HWb 0%nat HN)|exact W0|apply I].
  - destruct (like_fields _ _ (HK 0%nat HN)) as (_ & _ & _ & -> & _). apply I.
  - apply (bare_frame base f); [apply I|]. intros q Hq. rewrite Eg. apply put_rows_frame_exact. intros r i k Hr Hh ->. apply (Hq (Z.of_nat i)); [lia|reflexivity].
Qed.

(* The block is closed and holds the rows of the table. *)
Definition stored (t : table) (c : nat -> Z) (f : fs) : Prop := exists v ts, hinv (e 0%nat) base dt nmemb w (resum t ts) f v /\ b_dirty v = false /\ bare base f /\
  forall j, (j < length (t_sizes t))%nat -> nth j (b_fchecksum v) 0 = c j.

(* The checksums c are those of the data. *)
Definition valid (t : table) (c : nat -> Z) (f : fs) : Prop := forall j x, (j < length (t_sizes t))%nat -> data_file f base j = Some x -> c j = byte_sum x mod 2 ^ 32.
(* Adding up the ranks' checksums does no harm. *)
Definition adds_up (t : table) (c : nat -> Z) (s : session) : Prop := session_rows N s = [] \/ forall j, (j < length (t_sizes t))%nat -> Z.of_nat N * c j = c j.
Fixpoint all_add_up (t : table) (c : nat -> Z) (l : list session) : Prop :=
  match l with
  | [] => True
  | s :: r => adds_up t c s /\ all_add_up (with_rows t (s_first s) (session_rows N s)) (fun j => sum_after N (t_sizes t) j (c j) s) r
  end.

Lemma valid_put s t c f g : stored t c f -> session_ok N w (t_size t) s -> (forall q, s_first s <= q < s_first s + zlen (session_rows N s) -> t_row t q = None) ->
  adds_up t c s -> valid t c f -> (forall j x, data_file g base j = Some x -> data_file (put_rows f base (t_sizes t) w (s_first s) (session_rows N s)) base j = Some x) ->
  valid (with_rows t (s_first s) (session_rows N s)) (fun j => sum_after N (t_sizes t) j (c j) s) g.
Proof.
  intros (v & ts & Iv & Dv & Ba & Sv) (Ho & Hin & HFz & _) Hfr Had Hv Hg j x Hj Hx. apply Hg in Hx. change (t_sizes (with_rows t (s_first s) (session_rows N s))) with (t_sizes t) in Hj.
  pose proof (wb_wpos _ _ _ _ (hv_wb _ _ _ _ _ _ _ _ Iv)) as Hwp. pose proof (wb_layout _ _ _ _ (hv_wb _ _ _ _ _ _ _ _ Iv)) as HL. cbn [resum t_sizes] in HL.
  assert (Hs : sums_ok f base (t_sizes t) (b_fchecksum v)) by (intros i y Hi Hy; rewrite Sv by exact Hi; apply (Hv i y Hi Hy)).
  pose proof (hv_N _ _ _ _ _ _ _ _ Iv) as HN24. cbn [resum t_sizes] in HN24.
  assert (Lk : (j < length (b_fchecksum v))%nat) by (rewrite (hl_cks _ _ HL); lia).
  assert (Hrange : nth j (b_fchecksum v) 0 = nth j (b_fchecksum v) 0 mod 2 ^ 32).
  { symmetry. apply Z.mod_small. assert (R : Forall (fun c => 0 <= c < 2 ^ 32) (b_fchecksum v)) by apply HL. rewrite Forall_forall in R. apply R. apply nth_In. exact Lk. }
  pose proof (sums_put_rows base (t_sizes t) w (session_rows N s) f (s_first s) (b_fchecksum v)) as SP.
  assert (Hok : sums_ok (put_rows f base (t_sizes t) w (s_first s) (session_rows N s)) base (t_sizes t) (add_sums (b_fchecksum v) (t_sizes t) (s_first s) (session_rows N s))).
  { apply SP; auto; try apply HL; try apply Iv; try lia; try (rewrite (hl_cks _ _ HL); lia).
    - eapply Forall_impl; [|exact HFz]. cbv beta. unfold zlen. intros u Hu. lia.
    - intros r Hr u Hu. destruct (hv_zero _ _ _ _ _ _ _ _ Iv _ _ Hu) as [X|(_ & -> & _)]; [|reflexivity]. cbn [resum t_row] in X. rewrite Hfr in X by exact Hr. discriminate X. }
  rewrite <- (Hok j x Hj Hx). rewrite (add_sums_nth _ _ j _ _ (nth j (b_fchecksum v) 0) Lk Hrange), (Sv j Hj).
  unfold sum_after. destruct (session_rows N s) as [|y l] eqn:Er.
  - cbn [bytes_into]. rewrite Z.add_0_r, <- (Sv j Hj). exact Hrange.
  - destruct Had as [X|X]; [rewrite Er in X; discriminate X|]. rewrite (X j Hj). reflexivity.
Qed.

Variables (junk : nat -> nat -> nat -> byte) (nbase : nat -> Z) (alloc : nat -> Z -> Z * mem).
Lemma one_session s t c f : stored t c f -> session_ok N w (t_size t) s ->
  leads N [] (fun i => pm_session (junk i) (e i) (alloc i) (world N) i (nbase i) bf nm d nmemb (part_of s i)) f (fun res g =>
    (forall i, (i < N)%nat -> res i = PyRet tt) /\ stored (with_rows t (s_first s) (session_rows N s)) (fun j => sum_after N (t_sizes t) j (c j) s) g /\
    (forall q, ~ own_file base q -> fs_get g q = fs_get f q) /\
    (forall j x, data_file g base j = Some x -> data_file (put_rows f base (t_sizes t) w (s_first s) (session_rows N s)) base j = Some x)).
Proof.
  intros (v & ts & Iv & Dv & Ba & Sv) (Ho & Hin & HFz & HLi).
  set (all := session_rows N s) in *. set (o := s_first s) in *. set (rows := s_rows s) in *.
  pose proof (wb_wpos _ _ _ _ (hv_wb _ _ _ _ _ _ _ _ Iv)) as Hwp. pose proof (wb_layout _ _ _ _ (hv_wb _ _ _ _ _ _ _ _ Iv)) as HLv. cbn [resum t_sizes] in HLv.
  assert (Wr : Forall (fun u => length u = Z.to_nat w) all). { eapply Forall_impl; [|exact HFz]. cbv beta. unfold zlen. intros u Hu. lia. }
  pose (jk := fun _ _ _ _ : nat => x00). pose (nb := fun _ _ : nat => 0).
  destruct (choose_all N HN (fun i b => big_block_open (e i) f base = Ret (Some b) /\ hinv (e i) base dt nmemb w (resum t ts) f b /\ transferable me b /\ b_dirty b = false /\
     forall j, (j < length (t_sizes t))%nat -> nth j (b_fchecksum b) 0 = c j)) as (bo & HB).
  { intros i Hi0. destruct (open_ready N me jk nb e base dt nmemb w HN Hme Hbn Hty Hnm31 Hwc Hnb t ts f v (e i) (Hme i Hi0) Iv Dv Ba) as (b2 & O1 & O2 & O3 & O4 & O5).
    exists b2. split; [exact O1|]. split; [exact O2|]. split; [exact O3|]. split; [exact O4|]. intros j Hj. rewrite O5 by exact Hj. apply Sv. exact Hj. }
  assert (C0 : cinv t f bo).
  { constructor; try (intros i Hi; apply (HB i Hi)); [|apply (HB 0%nat HN)|apply (HB 0%nat HN)|exact Ba]. exists v, ts. split; [exact Iv|]. rewrite Dv. discriminate. }
  unfold pm_session. unfold pm_bind at 1. eapply leads_bind; [apply (lead_pyopen N HN [] e bf nm f bo (good_nil _)); intros i Hi; apply (HB i Hi)|].
  cbv beta. intros res g (-> & R).
  apply leads_ext with (fun i => mbind (pm_chunks (e i) (alloc i) (bo i) d nmemb (rows i) (o + before (fun i => zlen (rows i)) i) 0 (s_limit s i) (S (length (rows i)))) (fun rb =>
     let '(r, b) := rb in pm_bind (pm_flush (junk i) (e i) (world N) i (nbase i) b) (fun _ => mret r))).
  { intros i Hi. rewrite (R i Hi). reflexivity. }
  assert (HF : forall i, (i < N)%nat -> Forall (fun v => length v = Z.to_nat w) (rows i)).
  { intros i Hi0. apply Forall_forall. intros u Hu. rewrite Forall_forall in Wr. apply Wr. apply in_flat_map. exists i. split; [apply in_seq; lia|exact Hu]. }
  apply leads_does with (put_at me e base dt nmemb (t_sizes t) o rows bo f N).
  { apply (chunks_at N me e base dt nmemb (t_sizes t) HN Hme Hnm31 Hwc Hw31 Hdt o d rows alloc); auto.
    - change (total N (fun i => zlen (rows i))) with (before (fun i => zlen (rows i)) N). rewrite <- zlen_rows. exact Hin.
    - intros i Hi0. destruct (HB i Hi0) as (_ & I & _). constructor; [apply I|apply I|apply I|]. rewrite (Hme i Hi0). apply I.
    - apply Iv. }
  intros l res1 f2 AP. pose proof AP as [A1 A2 A3]. cbn [app].
  destruct (choose_all N HN (fun i b' => res1 i = (PyRet tt, b') /\ ours (e i) base dt nmemb (t_sizes t) b' /\ like (bo i) b' /\
     b_fchecksum b' = add_sums (b_fchecksum (bo i)) (t_sizes t) (o + before (fun i => zlen (rows i)) i) (rows i) /\ (rows i <> [] -> b_dirty b' = true) /\ (rows i = [] -> b' = bo i))) as (b' & Hb').
  { intros i Hi. exact (A3 i Hi). }
  apply leads_ext with (fun i => pm_bind (pm_flush (junk i) (e i) (world N) i (nbase i) (b' i)) (fun _ => mret (PyRet tt))).
  { intros i Hi0. rewrite (proj1 (Hb' i Hi0)). reflexivity. }
  set (T := with_rows t o all).
  assert (CT : forall g, fs_eq f2 g -> cinv T g b').
  { intros g Eg. apply (put_cinv t f g o rows bo b'); auto.
    - intros p. rewrite <- Eg. apply A1.
    - intros i Hi0. split; apply (Hb' i Hi0). }
  set (c' := fun j => sum_after N (t_sizes t) j (c j) s).
  unfold pm_bind. eapply leads_bind.
  { apply (lead_pyflush N me e dt nmemb HN Hme Hwc junk nbase l b' f2 (fun g h b2 => stored T c' h /\ frames base g h /\ forall i c, data_file h base i = Some c <-> data_file g base i = Some c)).
    - eapply put_at_good; [..|exact AP]; auto; [apply HLv|]. pose proof (hv_N _ _ _ _ _ _ _ _ Iv). cbn [resum t_sizes] in *. lia.
    - intros i Hi0. destruct (Hb' i Hi0) as (_ & [_ _ _ W] & _). destruct (Hb' 0%nat HN) as (_ & [_ _ _ W0] & _).
      pose proof (wb_layout _ _ _ _ W) as L. pose proof (wb_layout _ _ _ _ W0) as L0. rewrite (hl_Nfile _ _ L), (hl_Nfile _ _ L0). split; [reflexivity|]. unfold zlen. rewrite (hl_cks _ _ L). lia.
    - destruct (Hb' 0%nat HN) as (_ & [_ _ _ W0] & _). rewrite (hl_Nfile _ _ (wb_layout _ _ _ _ W0)). apply zlen_nonneg.
    - intros g Eg. pose proof (CT g Eg) as CI.
      destruct (flush_ready N me jk nb e base dt nmemb w HN Hme Hnm31 Hwc T g b' CI) as (h & ts2 & Ef & (v2 & Iv2 & Dv2) & Bh & Tr & Hd & Hdf & Hcl).
      exists h, (set_bdirty (merged N b') false). split; [exact Ef|]. split; [exact Tr|]. split.
      { destruct (existsb (fun i => b_dirty (b' i)) (seq 0 N)) eqn:X.
        - apply existsb_exists in X. destruct X as (i & Hi0 & Di). apply in_seq in Hi0.
          exists (set_bdirty (merged N b') false), ts2. split; [apply Hd; exists i; split; [lia|exact Di]|]. split; [reflexivity|]. split; [exact Bh|]. intros j Hj.
          change (b_fchecksum (set_bdirty (merged N b') false)) with (b_fchecksum (merged N b')). change (t_sizes T) with (t_sizes t) in Hj.
          rewrite (merged_nth N b' (t_sizes t) (e 0%nat) w j (ci_wb _ _ _ _ _ _ _ _ _ _ CI 0%nat HN) Hj).
          rewrite (recorded_at N o (t_sizes t) rows bo b' j Hj), (recorded_same N bo j (c j)).
          + unfold c', sum_after. fold all. destruct all as [|x r] eqn:Ea; [|rewrite <- Ea; reflexivity]. exfalso.
            assert (Er : rows i = []) by (destruct (rows i) as [|y r] eqn:Er; [reflexivity|]; assert (Y : In y all) by (apply in_flat_map; exists i; split; [apply in_seq; lia|fold rows; rewrite Er; left; reflexivity]); rewrite Ea in Y; destruct Y).
            destruct (Hb' i ltac:(lia)) as (_ & _ & _ & _ & _ & Y). rewrite (Y Er) in Di. destruct (HB i ltac:(lia)) as (_ & _ & _ & Y2 & _). congruence.
          + intros k Hk. apply (HB k Hk). exact Hj.
          + intros k Hk. destruct (HB k Hk) as (_ & Ik & _). pose proof (wb_layout _ _ _ _ (hv_wb _ _ _ _ _ _ _ _ Ik)) as HLk. split; [apply HLk|]. split; [apply HLk|]. apply (Hb' k Hk).
        - assert (Hcl' : forall i, (i < N)%nat -> b_dirty (b' i) = false).
          { intros i Hi0. destruct (b_dirty (b' i)) eqn:Y; [|reflexivity]. assert (Z : existsb (fun i => b_dirty (b' i)) (seq 0 N) = true) by (apply existsb_exists; exists i; split; [apply in_seq; lia|exact Y]). congruence. }
          assert (Ea : all = []).
          { unfold all, session_rows. apply flat_map_nil. intros i Hi0. apply in_seq in Hi0. destruct (rows i) as [|x r] eqn:Er; [exact Er|]. destruct (Hb' i ltac:(lia)) as (_ & _ & _ & _ & Y & _). rewrite Er in Y. rewrite Hcl' in Y by lia. discriminate Y. discriminate. }
          rewrite (Hcl Hcl') in *. exists v, ts. split; [|split; [exact Dv|split; [exact Bh|]]].
          + apply (hinv_rows _ _ _ _ _ (resum t ts) f g v o all); auto. intros p. rewrite <- Eg. apply A1.
          + intros j Hj. unfold c', sum_after. fold all. rewrite Ea. apply Sv. exact Hj. }

      split; [|exact Hdf]. pose proof (flush_frames _ _ _ _ _ _ Ef) as [X _]. replace (b_base (merged N b')) with base in X; [exact X|]. symmetry. apply (ci_base _ _ _ _ _ _ _ _ _ _ CI 0%nat HN). }
  cbv beta. intros res2 h (g & b2 & Eg & (St & Fr & Df) & R2).
  apply leads_ext with (fun i => mret (PyRet tt)). { intros i Hi0. destruct (R2 i Hi0) as (b3 & ->). reflexivity. }
  apply (leads_ret N (fun i => PyRet tt)). split; [reflexivity|]. split; [exact St|].
  split; [|intros j x Hx; apply Df in Hx; unfold data_file in *; rewrite <- Eg, A1 in Hx; exact Hx].
  intros q Hq. rewrite Fr by exact Hq. rewrite <- Eg, A1. apply put_rows_frame_exact. intros r j k Hr Hh ->. apply Hq. right. right. exists (Z.of_nat j). split; [lia|reflexivity].
Qed.

Lemma all_sessions ss : forall t c f, stored t c f -> Forall (session_ok N w (t_size t)) ss ->
  leads N [] (fun i => pm_sessions (junk i) (e i) (alloc i) (world N) i (nbase i) bf nm d nmemb (map (fun s => part_of s i) ss)) f (fun res g =>
    (forall i, (i < N)%nat -> res i = PyRet tt) /\ stored (after_sessions N t ss) (fun j => sum_after_all N (t_sizes t) j (c j) ss) g /\ (forall q, ~ own_file base q -> fs_get g q = fs_get f q) /\
    (fresh_sessions N t ss -> all_add_up t c ss -> valid t c f -> valid (after_sessions N t ss) (fun j => sum_after_all N (t_sizes t) j (c j) ss) g)).
Proof.
  induction ss as [|s ss IH]; intros t c f St Hok; cbn [map pm_sessions after_sessions sum_after_all fresh_sessions all_add_up].
  - apply (leads_ret N (fun i => PyRet tt)). auto.
  - inversion Hok as [|? ? H1 H2]; subst. unfold pm_bind. eapply leads_bind; [apply (one_session s t c f St H1)|]. cbv beta. intros res g (R & St' & Fr & Df).
    apply leads_ext with (fun i => pm_sessions (junk i) (e i) (alloc i) (world N) i (nbase i) bf nm d nmemb (map (fun s => part_of s i) ss)). { intros i Hi. rewrite (R i Hi). reflexivity. }
    eapply leads_mono; [|apply (IH _ _ g St' H2)]. cbv beta. intros res2 h (R2 & S2 & F2 & V2). split; [exact R2|]. split; [exact S2|]. split; [intros q Hq; rewrite F2 by exact Hq; apply Fr; exact Hq|].
    intros [Hf1 Hf2] [Ha1 Ha2] Hv. apply V2; [exact Hf2|exact Ha2|]. apply (valid_put s t c f g); auto.
Qed.
End Sess.

Theorem sessions_run N me e junk nbase alloc bf nm d nmemb sizes e0 f hs ys f1 b1 ss : let base := path_join bf nm in let dt := dtype_normalize me d in let w := itemsize me dt * nmemb in
  (0 < N)%nat -> (forall i, (i < N)%nat -> e_me (e i) = me /\ w <= e_chunk (e i)) -> nul_free base ->
  new_block e0 f base d nmemb sizes -> e_me e0 = me ->
  history_ok me dt nmemb sizes hs -> create_and_run e0 f base d nmemb sizes hs = Ret (Some (ys, (f1, b1))) -> b_dirty b1 = false -> no_attributes f1 base ->
  exists t, hspecs me dt nmemb (new_table sizes) hs ys t /\
    (Forall (session_ok N w (t_size t)) ss ->
     ends N (fun res s => (forall i, (i < N)%nat -> res i = PyRet tt) /\
         (forall q, ~ own_file base q -> fs_get (g_fs s) q = fs_get f1 q) /\
         forall e1, e_me e1 = me -> w <= e_chunk e1 -> exists t2 b, same_rows (after_sessions N t ss) t2 /\
           big_block_open e1 (g_fs s) base = Ret (Some b) /\ b_size b = t_size t /\
           (forall j, (j < length (t_sizes t))%nat -> nth j (b_fchecksum b) 0 = sum_after_all N (t_sizes t) j (nth j (b_fchecksum b1) 0) ss) /\
           (fresh_sessions N t ss -> N = 1%nat \/ (length ss <= 1)%nat /\ (forall j, nth j (b_fchecksum b1) 0 = 0) -> sums_ok f1 base (t_sizes t) (b_fchecksum b1) -> sums_ok (g_fs s) base (t_sizes t) (b_fchecksum b)) /\
           forall hs, history_ok me dt nmemb (t_sizes t) hs -> exists ys f' b' t', hrun e1 (g_fs s, b) hs = Ret (ys, (f', b')) /\ hspecs me dt nmemb t2 hs ys t')
       (launch (fun i => whole (pm_sessions (junk i) (e i) (alloc i) (world N) i (nbase i) bf nm d nmemb (map (fun s => part_of s i) ss))) f1)).
Proof.
  intros base dt w HN He Hnb HB Em Hh E D Ba. destruct (history e0 f base d nmemb sizes hs HB) as (ys' & f1' & b1' & t & E' & S & I & _); [rewrite Em; exact Hh|].
  rewrite E in E'. injection E' as <- <- <-. rewrite Em in S, I. fold dt in S, I. fold w in I. exists t. split; [exact S|]. intros Hok.
  destruct HB. rewrite Em in *. fold dt in nb_type, nb_dt, nb_chunk, nb_width. fold w in nb_chunk, nb_width.
  assert (Hme : forall i, (i < N)%nat -> e_me (e i) = me) by (intros i Hi; apply (He i Hi)).
  assert (Hwc : forall i, (i < N)%nat -> w <= e_chunk (e i)) by (intros i Hi; apply (He i Hi)).
  pose (jk := fun _ _ _ _ : nat => x00). pose (nb := fun _ _ : nat => 0).
  assert (St : stored me e bf nm d nmemb t (fun j => nth j (b_fchecksum b1) 0) f1).
  { exists b1, (t_sum t). split; [|split; [exact D|split; [exact Ba|reflexivity]]]. fold base dt w. destruct t as [sz rw sm]. unfold resum. cbn [t_sizes t_row t_sum].
    destruct (open_attrs_none (e 0%nat) f1 base (proj1 Ba) (proj2 Ba)) as (s & Ea & As & Ad).
    destruct I. constructor; auto; [|exists s; auto]. eapply me_wblock; [|exact hv_wb]. rewrite (Hme 0%nat HN). auto. }
  eapply ends_mono; [|apply ends_leads; apply (all_sessions N me e bf nm d nmemb HN Hme nb_name nb_type nb_nmemb Hwc nb_width nb_dt Hnb junk nbase alloc ss t _ f1 St Hok)].
  cbv beta. intros res s (R & (v & ts & Iv & Dv & Bh & Sv) & Fr & V). split; [exact R|]. split; [exact Fr|]. intros e1 Em1 Hc1.
  assert (Esz : forall l u, t_sizes (after_sessions N u l) = t_sizes u) by (induction l as [|x l IHl]; intros u; [reflexivity|cbn [after_sessions]; rewrite IHl; reflexivity]).
  destruct (open_ready N me jk nb e base dt nmemb w HN Hme nb_name nb_type nb_nmemb Hwc Hnb _ ts (g_fs s) v e1 Em1 Iv Dv Bh) as (b2 & Eo & I2 & _ & _ & Hn).
  exists (resum (after_sessions N t ss) ts), b2. split; [split; reflexivity|]. split; [exact Eo|].
  split; [rewrite (hl_size _ _ (wb_layout _ _ _ _ (hv_wb _ _ _ _ _ _ _ _ I2))); unfold t_size; cbn [resum t_sizes]; rewrite Esz; reflexivity|].
  split; [intros j Hj; rewrite Hn by (rewrite Esz; exact Hj); apply Sv; rewrite Esz; exact Hj|].
  split.
  { intros Hf Hn1 Hs. assert (Va : valid bf nm (after_sessions N t ss) (fun j => sum_after_all N (t_sizes t) j (nth j (b_fchecksum b1) 0) ss) (g_fs s)).
    { apply V; [exact Hf| |exact Hs]. clear -Hn1. destruct Hn1 as [->|[Hl Hz]].
      - generalize (fun j => nth j (b_fchecksum b1) 0) t. induction ss as [|x l IH]; intros c u; [exact I|]. split; [right; intros j _; lia|apply IH].
      - destruct ss as [|x [|y l]]; [exact I| |cbn in Hl; lia]. split; [right; intros j _; rewrite Hz; lia|exact I]. }
    intros j x Hj Hx. rewrite Hn by (rewrite Esz; exact Hj). rewrite Sv by (rewrite Esz; exact Hj). apply Va; [rewrite Esz; exact Hj|exact Hx]. }
  intros hs2 Hh2. rewrite <- Em1 in Hh2. destruct (hist_run e1 base dt nmemb w nb_name nb_type (proj2 nb_nmemb) Hc1 nb_width hs2 (resum (after_sessions N t ss) ts) (g_fs s) b2 I2) as (ys2 & f' & b' & t' & E2 & Hs & _); [cbn [resum t_sizes]; rewrite Esz; exact Hh2|].
  rewrite Em1 in Hs. exists ys2, f', b', t'. split; assumption.
Qed.
