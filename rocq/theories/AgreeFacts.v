(* Segments, agreement on errors, and the choice of a leader. *)
From Coq.Strings Require Import Byte String.
From Coq Require Import List ZArith Lia Bool ZifyBool ZifyNat.
From Verif Require Import Base BaseFacts Dtype Cast Array FS Fmt Attr Block Spec SeekFacts FSFacts ArrayFacts ConvFacts WriteFacts ReadFacts
  OpenFacts Par MpiSpec ParFacts SyncFacts VecFacts CollFacts Mpi SegFacts StepFacts HistSpec HistFacts AggFacts LoopFacts MpiFacts.
Import ListNotations.
Open Scope Z_scope.
Ltac Zify.zify_post_hook ::= Z.div_mod_to_equations.

Section Seg.
Variables (limit : Z) (s s2 : list Z).
Hypothesis Hlim : 0 <= limit.
Hypothesis Hl : length s2 = length s.
Hypothesis F1 : Forall (fun x => 0 <= x) s.
Hypothesis F2 : Forall (fun x => 0 <= x) s2.
Hypothesis B1 : zsum s < 2 ^ 64.
Hypothesis B2 : zsum s2 < 2 ^ 64.
Notation rc := (rawc limit s s2).
Definition col (i : nat) : Z := fst (assign_colors limit s s2 i).
Definition empty (i : nat) : bool := (nth i s 0 =? 0) && (nth i s2 0 =? 0).

Lemma col_eq i : col i = if empty i then -1 else rc i.
Proof. unfold col. rewrite (assign_eq limit Hlim s s2 Hl F1 F2 B1 B2). reflexivity. Qed.
Lemma rc_nonneg i : (i < length s)%nat -> 0 <= rc i.
Proof. intros Hi. apply (raw_spec limit Hlim s s2 Hl F1 F2 B1 B2). exact Hi. Qed.
Lemma rc_mono i j : (i <= j)%nat -> (j < length s)%nat -> rc i <= rc j.
Proof. intros A B. apply (raw_mono limit Hlim s s2 Hl F1 F2 B1 B2 i j A B). Qed.

Lemma seg_sum_raw t c l : (t = s \/ t = s2) -> 0 <= c -> zsum (map (fun k => nth k t 0) (filter (fun k => col k =? c) l)) = sum_over (fun k => nth k t 0) (filter (fun k => rc k =? c) l).
Proof.
  intros Ht Hc. induction l as [|x l IH]; [reflexivity|]. cbn [filter]. rewrite col_eq. destruct (empty x) eqn:E.
  - replace (-1 =? c) with false by lia. rewrite IH. destruct (rc x =? c); [|reflexivity]. rewrite sum_over_cons. unfold empty in E. destruct Ht as [-> | ->]; lia.
  - destruct (rc x =? c); [cbn [map]; rewrite zsum_cons, sum_over_cons, IH; reflexivity|exact IH].
Qed.

Lemma before_bound t j : (t = s \/ t = s2) -> (j < length s)%nat -> sum_over (fun k => nth k t 0) (filter (fun k => rc k =? rc j) (seq 0 j)) <= limit.
Proof.
  intros Ht. destruct (raw_spec limit Hlim s s2 Hl F1 F2 B1 B2) as (_ & _ & _ & _ & R). destruct j as [|j]; intros Hj; [unfold sum_over; cbn; lia|].
  specialize (R j Hj). rewrite !(acc_eq limit s s2 Hl) in R.
  destruct ((limit <? _) || (limit <? _)) eqn:Eo in R.
  - rewrite filter_all_false; [unfold sum_over; cbn; lia|]. intros k Hk. apply in_seq in Hk. pose proof (rc_mono k j ltac:(lia) ltac:(lia)). lia.
  - rewrite R, Z.add_0_r. apply orb_false_iff in Eo. destruct Ht as [-> | ->]; lia.
Qed.

Lemma step_at c : forall j, (j < length s)%nat -> rc 0 <= c < rc j -> exists i, (S i < length s)%nat /\ (S i <= j)%nat /\ rc i = c /\ rc (S i) = c + 1.
Proof.
  destruct (raw_spec limit Hlim s s2 Hl F1 F2 B1 B2) as (_ & _ & _ & _ & R).
  induction j as [|j IH]; intros Hj Hc; [lia|]. specialize (R j Hj). destruct (Z_lt_le_dec c (rc j)) as [L|L]; [destruct (IH ltac:(lia) ltac:(lia)) as (i & A & B & D); exists i; split; [exact A|]; split; [lia|exact D]|].
  exists j. destruct (_ || _) in R; [|lia]. split; [lia|]. split; [lia|]. lia.
Qed.

Theorem segments_spec : forall count, (forall i, (i < length s)%nat -> snd (assign_colors limit s s2 i) = count) -> s <> [] -> segmentation limit s s2 col count.
Proof.
  intros count Hcount Hne. pose proof (raw_spec limit Hlim s s2 Hl F1 F2 B1 B2) as (_ & R0 & _ & _ & R). specialize (R0 Hne).
  assert (Hlen : (0 < length s)%nat) by (destruct s; [contradiction|cbn; lia]).
  assert (Ec : count = List.last (raw limit s s2) 0 + 1). { rewrite <- (Hcount 0%nat Hlen). rewrite (assign_eq limit Hlim s s2 Hl F1 F2 B1 B2). reflexivity. }
  assert (Le : forall i, (i < length s)%nat -> rc i < count) by (intros i Hi; pose proof (rawc_le_last limit Hlim s s2 Hl F1 F2 B1 B2 i Hi); lia).
  assert (EL : count - 1 = rc (length s - 1)) by (rewrite Ec, (last_raw limit Hlim s s2 Hl F1 F2 B1 B2 Hne); lia).
  assert (ND : forall i, (i < length s)%nat -> col i <> -1 -> empty i = false /\ col i = rc i). { intros i Hi C. rewrite col_eq in *. destruct (empty i); [contradiction|auto]. }
  constructor.
  - intros i Hi. rewrite col_eq. unfold empty. pose proof (rc_nonneg i Hi). destruct (nth i s 0 =? 0) eqn:E1, (nth i s2 0 =? 0) eqn:E2; cbn [andb]; lia.
  - intros i Hi C. destruct (ND i Hi C) as [_ ->]. pose proof (rc_nonneg i Hi). pose proof (Le i Hi). lia.
  - intros i j Hij C1 C2. destruct (ND i ltac:(lia) C1) as [_ ->]. destruct (ND j ltac:(lia) C2) as [_ ->]. apply rc_mono; lia.
  - intros c Hc. destruct (step_at c (length s - 1)%nat ltac:(lia) ltac:(lia)) as (i & Hi & _ & E1 & E2).
    destruct (step_has_data limit Hlim s s2 Hl F1 F2 B1 B2 i Hi ltac:(lia)) as (k & Hk & Ek & Dk). exists k. split; [lia|]. rewrite col_eq. unfold empty, has_data in *. destruct (nth k s 0 =? 0) eqn:X1, (nth k s2 0 =? 0) eqn:X2; cbn [andb]; lia.
  - intros j Hj C. destruct (ND j Hj C) as [_ Ej]. pose proof (rc_nonneg j Hj). unfold seg_sum. rewrite !seg_sum_raw by (auto; lia). rewrite Ej. split; apply before_bound; auto.
  - intros i j Hi Hj C1 C2. assert (C2' : col j <> -1). { intros E. destruct (ND i Hi C1) as [_ E1]. pose proof (rc_nonneg i Hi). lia. }
    destruct (ND i Hi C1) as [_ E1]. destruct (ND j Hj C2') as [_ E2]. pose proof (rc_nonneg i Hi).
    destruct (step_at (rc i) j Hj) as (q & Hq & Hqj & Q1 & Q2). { pose proof (rc_mono 0 i ltac:(lia) Hi). lia. }
    specialize (R q Hq). rewrite !(acc_eq limit s s2 Hl), Q1, Q2 in R.
    unfold seg_sum. rewrite !seg_sum_raw by (auto; lia). rewrite E1.
    assert (X : forall t, Forall (fun x => 0 <= x) t -> sum_over (fun k => nth k t 0) (filter (fun k => rc k =? rc i) (seq 0 (S q))) <= sum_over (fun k => nth k t 0) (filter (fun k => rc k =? rc i) (seq 0 (length s)))).
    { intros t Ft. replace (length s) with (S q + (length s - S q))%nat by lia. rewrite seq_app, filter_app, sum_over_app.
      pose proof (sum_over_nonneg (fun k => nth k t 0) (filter (fun k => rc k =? rc i) (seq (0 + S q) (length s - S q))) (fun k _ => nth_nonneg s s2 Hl t k Ft)). lia. }
    pose proof (X s F1). pose proof (X s2 F2). destruct ((limit <? _) || (limit <? _)) eqn:Eo in R; [|lia]. apply orb_true_iff in Eo. destruct Eo as [Eo|Eo]; apply Z.ltb_lt in Eo; [left|right]; lia.
Qed.
End Seg.

(* --------------------------------------------------------------- errors *)
Lemma last_bad_highest N rt k : last_bad (seq 0 N) rt = Some k -> (k < N)%nat /\ rt k <> 0 /\ forall j, (k < j < N)%nat -> rt j = 0.
Proof.
  intros H. pose proof (last_bad_in _ _ _ H) as [A B]. apply in_seq in A. split; [lia|]. split; [exact B|]. intros j Hj.
  replace N with (S k + (N - S k))%nat in H by lia. rewrite seq_app, last_bad_app in H. destruct (last_bad (seq (0 + S k) (N - S k)) rt) as [q|] eqn:E.
  - apply last_bad_in in E. destruct E as [E _]. injection H as ->. apply in_seq in E. lia.
  - rewrite last_bad_none in E. apply E. apply in_seq. lia.
Qed.

Theorem agreement N (rt : nat -> Z) (msg : nat -> bytes) f : (0 < N)%nat ->
  ends N (fun res s => g_fs s = f /\
      ((forall i, (i < N)%nat -> rt i = 0 /\ res i = (0, msg i)) \/
       exists k, (k < N)%nat /\ rt k <> 0 /\ (forall j, (k < j < N)%nat -> rt j = 0) /\ forall i, (i < N)%nat -> res i = (rt k, msg k)))
    (launch (fun i => whole (anyerror (world N) i (rt i) (msg i))) f).
Proof.
  intros HN. eapply (ends_does N eq _ f (fun res g => g = f /\ _)).
  { reflexivity. } { congruence. } { congruence. }
  eapply (does_anyerror N (fun _ => true) (fun _ => world N) rt msg f); [apply world_family; exact HN|].
  intros res HR. split; [apply reads_good; intros i o []|]. intros g <-. split; [reflexivity|]. unfold outcome in HR. cbn [c_mem world] in HR.
  destruct (last_bad (seq 0 N) rt) as [k|] eqn:E.
  - right. destruct (last_bad_highest N rt k E) as (A & B & D). exists k. auto.
  - left. rewrite last_bad_none in E. intros i Hi. split; [apply E; apply in_seq; lia|apply HR; auto].
Qed.

(* ---------------------------------------------------------------- leader *)
Lemma nth_error_seq0 N k : (k < N)%nat -> nth_error (seq 0 N) k = Some k.
Proof. intros H. rewrite (nth_error_nth' _ 0%nat) by (rewrite seq_length; lia). rewrite seq_nth by lia. reflexivity. Qed.
Lemma fold_max_spec r : forall x, (forall y, In y (x :: r) -> y <= fold_left Z.max r x) /\ In (fold_left Z.max r x) (x :: r).
Proof.
  induction r as [|z r IH]; intros x; cbn [fold_left]; [split; [intros y [<-|[]]; lia|left; reflexivity]|]. destruct (IH (Z.max x z)) as [A B]. split.
  - intros y [<-|[<-|Hy]]; [pose proof (A (Z.max x z) (or_introl eq_refl)); lia|pose proof (A (Z.max x z) (or_introl eq_refl)); lia|apply A; right; exact Hy].
  - destruct B as [B|B]; [|right; right; exact B]. rewrite <- B. destruct (Z.max_spec x z) as [[_ ->]|[_ ->]]; [right; left|left]; reflexivity.
Qed.
Lemma fold_min_spec r : forall x, (forall y, In y (x :: r) -> fold_left Z.min r x <= y) /\ In (fold_left Z.min r x) (x :: r).
Proof.
  induction r as [|z r IH]; intros x; cbn [fold_left]; [split; [intros y [<-|[]]; lia|left; reflexivity]|]. destruct (IH (Z.min x z)) as [A B]. split.
  - intros y [<-|[<-|Hy]]; [pose proof (A (Z.min x z) (or_introl eq_refl)); lia|pose proof (A (Z.min x z) (or_introl eq_refl)); lia|apply A; right; exact Hy].
  - destruct B as [B|B]; [|right; right; exact B]. rewrite <- B. destruct (Z.min_spec x z) as [[_ ->]|[_ ->]]; [left|right; left]; reflexivity.
Qed.

Theorem leader N t op (v : nat -> Z) f (better : Z -> Z -> Prop) : (0 < N)%nat -> op = RMax /\ better = Z.ge \/ op = RMin /\ better = Z.le ->
  ends N (fun res s => g_fs s = f /\ exists k, (k < N)%nat /\ (forall j, (j < N)%nat -> better (v k) (v j)) /\ (forall j, (j < k)%nat -> v j <> v k) /\
      forall i, (i < N)%nat -> res i = Z.of_nat k)
    (launch (fun i => whole (getloc (world N) i t op (v i))) f).
Proof.
  intros HN Hop. set (m := match reduce1 t op (map v (seq 0 N)) with Some m => m | None => 0 end).
  assert (Em : reduce1 t op (map v (seq 0 N)) = Some m) by (unfold m; destruct Hop as [[-> _]|[-> _]]; reflexivity).
  clearbody m.
  assert (Best : forall j, (j < N)%nat -> better m (v j)).
  { intros j Hj. assert (I : In (v j) (map v (seq 0 N))) by (apply in_map; apply in_seq; lia). destruct (map v (seq 0 N)) as [|x r]; [destruct I|].
    destruct Hop as [[-> ->]|[-> ->]]; injection Em as <-; [apply Z.le_ge; apply (fold_max_spec r x); exact I|apply (fold_min_spec r x); exact I]. }
  eapply (ends_does N eq _ f (fun res g => g = f /\ _)).
  { reflexivity. } { congruence. } { congruence. }
  eapply (does_getloc N (fun _ => true) (fun _ => world N) t op v (fun _ => m) f); [apply world_family; exact HN|destruct Hop as [[-> _]|[-> _]]; auto|intros i Hi _; exact Em|].
  intros res HR HS. split; [apply reads_good; intros i o []|]. intros g <-. split; [reflexivity|].
  destruct (HR 0%nat HN eq_refl) as (k & Ek & j & Ej & Vj & Fj). cbn [c_mem world] in Ej, Fj.
  assert (Hk : (k < N)%nat) by (rewrite <- (seq_length N 0); apply nth_error_Some; congruence). rewrite nth_error_seq0 in Ej by lia. injection Ej as <-.
  exists k. rewrite Vj. split; [exact Hk|]. split; [exact Best|]. split; [intros j Hj; apply (Fj j j Hj); apply nth_error_seq0; lia|].
  intros i Hi. rewrite <- Ek. apply (HS 0%nat i HN eq_refl). apply in_seq. lia.
Qed.

(* ------------------------------------------------------- as stated in Props *)
Theorem segments limit s s2 : 0 <= limit -> s <> [] -> length s2 = length s ->
  Forall (fun x => 0 <= x) s -> Forall (fun x => 0 <= x) s2 -> zsum s < 2 ^ 64 -> zsum s2 < 2 ^ 64 ->
  exists count, (forall i, snd (assign_colors limit s s2 i) = count) /\
    segmentation limit s s2 (fun i => fst (assign_colors limit s s2 i)) count.
Proof.
  intros Hlim Hne Hl F1 F2 B1 B2. exists (List.last (raw limit s s2) 0 + 1).
  assert (H : forall i, snd (assign_colors limit s s2 i) = List.last (raw limit s s2) 0 + 1) by (intros i; rewrite (assign_eq limit Hlim s s2 Hl F1 F2 B1 B2); reflexivity).
  split; [exact H|]. apply (segments_spec limit s s2 Hlim Hl F1 F2 B1 B2); auto.
Qed.

Lemma ends_mono {A} N (P P' : (nat -> A) -> config A -> Prop) s : (forall res s, P res s -> P' res s) -> ends N P s -> ends N P' s.
Proof. intros H. induction 1 as [s res HD HM HP|s HS HE _ IH]; [eapply ends_done; eauto|apply ends_step; auto]. Qed.

Section Calls.
Variables (N : nat) (me : endian) (e : nat -> env) (b : nat -> block) (p : nat -> bptr) (sizes : list Z) (w : Z) (base dt : bytes) (nm o : Z) (n : nat -> Z).
Hypothesis HN : (0 < N)%nat.
Hypothesis HC : coll_ok N me e b p sizes w base dt nm o n.
Variables (a : nat -> array) (um : nat -> mem) (thr conc : Z).
Hypothesis Hsm : segments_small N thr n.
Variables (vs outs : nat -> list bytes) (f : fs).
Hypothesis HS : forall i, (i < N)%nat -> rank_source me (a i) (um i) (n i) nm (vs i).

Theorem coll_write_ok : (forall i, (i < N)%nat -> convertible me (a_dtype (a i)) dt /\ Forall2 (converts me (a_dtype (a i)) dt) (vs i) (outs i)) ->
  let rows := flat_map (fun i => rows_of nm (n i) (outs i)) (seq 0 N) in
  ends N (fun res s => exists rc b' p' um',
      (rc = 0 \/ rc = -1) /\
      (rc = 0 <-> o + total N n <= zsum sizes /\ rows_exist f base sizes o (o + total N n)) /\
      (forall i, (i < N)%nat -> res i = (rc, b' i, p' i, um' i) /\ like (b i) (b' i)) /\
      (rc = 0 ->
         fs_eq (g_fs s) (put_rows f base sizes w o rows) /\
         (forall i, (i < N)%nat -> ptr_at sizes (p' i) (o + total N n) /\ src_after me (um i) (um' i) (a i) 0 (vs i) /\
            (b_fchecksum (b' i) <> b_fchecksum (b i) -> b_dirty (b' i) = true)) /\
         forall j, (j < length sizes)%nat -> recorded N b' j mod 2 ^ 32 = (recorded N b j + bytes_into sizes j o rows) mod 2 ^ 32))
    (launch (fun i => whole (mpi_write thr (e i) (world N) i (b i) (p i) (a i) (um i) conc)) f).
Proof.
  intros HF rows. eapply ends_mono; [|apply (coll_write_any N me e b p sizes w base dt nm o n HN HC a um thr conc Hsm vs outs f HS)].
  - cbv beta. intros res s (_ & rc & b' & p' & um' & R1 & R2 & R3 & R4). exists rc, b', p', um'. split; [exact R1|]. split; [exact R2|]. split; [intros i Hi; destruct (R3 i Hi) as (A1 & A2 & _); auto|].
    intros R. destruct (R4 R) as (B1 & B2 & B3); [intros i Hi; apply HF; exact Hi|]. split; [exact B1|]. split; [|exact B3].
    intros i Hi. destruct (R3 i Hi) as (_ & _ & _ & A4 & _). destruct (B2 i Hi) as [B4 B5]. auto.
  - intros i Hi _. apply HF. exact Hi.
Qed.

Hypothesis HF : forall i, (i < N)%nat -> convertible me (a_dtype (a i)) dt -> Forall2 (converts me (a_dtype (a i)) dt) (vs i) (outs i).

Theorem coll_write_matches :
  ends N (fun res s => exists rc, (rc = 0 \/ rc = -1) /\
      forall i, (i < N)%nat -> exists b' p' um', res i = (rc, b', p', um') /\ like (b i) b' /\ wblock (e i) b' sizes w /\
        (rc = 0 -> ptr_at sizes p' (o + total N n)) /\ (rc <> 0 -> p' = p i))
    (launch (fun i => whole (mpi_write thr (e i) (world N) i (b i) (p i) (a i) (um i) conc)) f).
Proof.
  eapply ends_mono; [|apply (coll_write_any N me e b p sizes w base dt nm o n HN HC a um thr conc Hsm vs outs f HS HF)].
  cbv beta. intros res s (_ & rc & b' & p' & um' & R1 & R2 & R3 & R4). exists rc. split; [exact R1|]. intros i Hi. destruct (R3 i Hi) as (A1 & A2 & A3 & A4 & A5 & _). eauto 10.
Qed.

Theorem coll_write_spares :
  ends N (fun res s => spares base sizes w o (o + total N n) f (g_fs s) /\
      (zsum sizes < o + total N n -> forall i, (i < N)%nat -> exists b' um', res i = (-1, b', p i, um') /\ like (b i) b'))
    (launch (fun i => whole (mpi_write thr (e i) (world N) i (b i) (p i) (a i) (um i) conc)) f).
Proof.
  eapply ends_mono; [|apply (coll_write_any N me e b p sizes w base dt nm o n HN HC a um thr conc Hsm vs outs f HS HF)].
  cbv beta. intros res s (R0 & rc & b' & p' & um' & R1 & R2 & R3 & R4). split; [exact R0|]. intros Ho i Hi. destruct R1 as [R1|R1]; [apply R2 in R1; lia|]. destruct (R3 i Hi) as (A1 & A2 & _ & _ & A5 & _).
  exists (b' i), (um' i). rewrite A1, R1, (A5 ltac:(lia)). auto.
Qed.
End Calls.
