(* The loop over the segments, and the segmenter. *)
From Coq.Strings Require Import Byte String.
From Coq Require Import List ZArith Lia Bool ZifyBool ZifyNat Sorting.Sorted.
From Verif Require Import Base BaseFacts Dtype Cast Array FS Fmt Attr Block Spec SeekFacts FSFacts ArrayFacts ConvFacts WriteFacts ReadFacts
  OpenFacts Par MpiSpec ParFacts SyncFacts VecFacts CollFacts Mpi SegFacts StepFacts HistFacts AggFacts.
Import ListNotations.
Open Scope Z_scope.
Ltac Zify.zify_post_hook ::= Z.div_mod_to_equations.

Definition st_rt (x : Z * block * mem) : Z := fst (fst x).
Definition st_b (x : Z * block * mem) : block := snd (fst x).
Definition st_um (x : Z * block * mem) : mem := snd x.

Section Loop.
Variables (N : nat) (act : action) (e : nat -> env) (p : nat -> bptr) (n : nat -> Z) (a : nat -> array) (sg : nat -> segmenter) (off : nat -> Z).
Let seg i := sg_seg (sg i).
Let G i := sg_group (sg i).
Let lo i := sg_start (sg i).
Let hi i := sg_end (sg i).
Hypothesis HG : family N (fun _ => true) G.
Hypothesis Hgrp : forall i j, (i < N)%nat -> In j (c_mem (G i)) -> lo j = lo i /\ hi j = hi i.
Hypothesis Hseg : forall i j, (i < N)%nat -> (j < N)%nat -> seg i = seg j -> In j (c_mem (G i)).
Hypothesis Hlo : forall i, (i < N)%nat -> lo i <= seg i < hi i.

Variable Inv : Z -> list (nat * ParFacts.act) -> (nat -> Z * block * mem) -> fs -> Prop.
Hypothesis Iext : forall s l st st' f, (forall i, (i < N)%nat -> st i = st' i) -> Inv s l st f -> Inv s l st' f.
Definition active (s : Z) (i : nat) : bool := (lo i <=? s) && (s <? hi i).
Definition rts (st : nat -> Z * block * mem) (i : nat) : Z := st_rt (st i).
Hypothesis Iagree : forall s l st f, Inv s l st f ->
  Inv s l (fun i => if active s i then (verdict (G i) (rts st), st_b (st i), st_um (st i)) else st i) f.
Hypothesis Iskip : forall s l st f, Inv s l st f -> (forall i, (i < N)%nat -> seg i = s -> rts st i <> 0) -> Inv (s + 1) l st f.
Definition seg_run (st : nat -> Z * block * mem) (i : nat) : M (Z * block * mem) :=
  (offset <- bcast_int (sg_segment (sg i)) 0 8 (off i) ;;
   aggregated act (e i) (sg_segment (sg i)) i (Z.to_nat (sg_leader (sg i))) (st_b (st i)) (p i) offset (n i) (a i) (st_um (st i)))%prog.
Hypothesis Irun : forall s l st f, Inv s l st f -> (exists i, (i < N)%nat /\ seg i = s) -> (forall i, (i < N)%nat -> seg i = s -> rts st i = 0) ->
  does N (fun i => seg i =? s) (seg_run st) f (fun l' st' f' => Inv (s + 1) (l ++ l') (fun i => if seg i =? s then st' i else st i) f').

Lemma active_group s i j : (i < N)%nat -> In j (c_mem (G i)) -> active s j = active s i.
Proof. intros Hi Hj. destruct (Hgrp i j Hi Hj) as [E1 E2]. unfold active. rewrite E1, E2. reflexivity. Qed.

Lemma step_does s l st f : Inv s l st f ->
  does N (fun _ => true) (fun i => if active s i then seg_step act (e i) i (sg i) (p i) (off i) (n i) (a i) s (st i) else mret (st i)) f
    (fun l' st' f' => Inv (s + 1) (l ++ l') st' f').
Proof.
  intros HI. set (st1 := fun i => if active s i then (verdict (G i) (rts st), st_b (st i), st_um (st i)) else st i).
  assert (HI1 : Inv s l st1 f) by (apply Iagree; exact HI).
  (* first the agreement in the groups *)
  apply does_ext with (fun i => st1 <- (if active s i then (_ <- barrier (G i) ;; rt <- agree (G i) i (rts st i) ;; mret (rt, st_b (st i), st_um (st i))) else mret (st i)) ;;
    (if active s i then
      (if negb (st_rt st1 =? 0) then mret st1 else if negb (seg i =? s) then mret st1 else
       offset <- bcast_int (sg_segment (sg i)) 0 8 (off i) ;;
       aggregated act (e i) (sg_segment (sg i)) i (Z.to_nat (sg_leader (sg i))) (st_b st1) (p i) offset (n i) (a i) (st_um st1)) else mret st1))%prog.
  { intros i Hi _. unfold rts. destruct (active s i); destruct (st i) as [[rt b] um]; reflexivity. }
  apply does_bind with (fun l' res f' => l' = [] /\ f' = f /\ forall i, (i < N)%nat -> res i = st1 i).
  { apply does_split with (S1 := active s) (Q1 := fun l' res f' => l' = [] /\ f' = f /\ forall i, (i < N)%nat -> active s i = true -> res i = st1 i).
    - assert (F : family N (fun i => true && active s i) G). { apply (family_sub N _ (active s) G HG). intros i j Hi _ Hj. apply active_group; auto. }
      apply does_ext with (fun i => _ <- barrier (G i) ;; rt <- agree (G i) i (rts st i) ;; mret (rt, st_b (st i), st_um (st i)))%prog.
      { intros i Hi Ha. cbn in Ha. rewrite Ha. reflexivity. }
      apply does_bind with (fun l' res f' => l' = [] /\ f' = f). { apply does_barrier; auto. }
      intros l1 r1 f1 (-> & ->).
      apply does_bind with (fun l' res f' => l' = [] /\ f' = f /\ forall i, (i < N)%nat -> active s i = true -> res i = verdict (G i) (rts st)).
      { apply does_agree with (C := G); [exact F|]. intros res HR. split; [reflexivity|]. split; [reflexivity|]. intros i Hi Ha. apply HR; auto. }
      intros l2 r2 f2 (-> & -> & HR). apply does_ret. split; [reflexivity|]. split; [reflexivity|]. intros i Hi Ha. rewrite HR by auto. unfold st1. rewrite Ha. reflexivity.
    - intros l1 res1 f1 (-> & -> & HR). apply does_ext with (fun i => mret (st i)). { intros i Hi Ha. cbn in Ha. destruct (active s i); [discriminate|reflexivity]. }
      apply does_ret. split; [reflexivity|]. split; [reflexivity|]. intros i Hi. destruct (active s i) eqn:Ea; [apply HR; auto|]. unfold st1. rewrite Ea. reflexivity. }
  intros l1 res1 f1 (-> & -> & HR). cbn [app].
  apply does_ext with (fun i => if active s i then
      (if negb (st_rt (st1 i) =? 0) then mret (st1 i) else if negb (seg i =? s) then mret (st1 i) else seg_run st1 i) else mret (st1 i)).
  { intros i Hi _. rewrite HR by auto. reflexivity. }
  (* uniform within the segment *)
  assert (U : forall i j, (i < N)%nat -> (j < N)%nat -> seg i = s -> seg j = s -> rts st1 j = rts st1 i).
  { intros i j Hi Hj Ei Ej. unfold rts, st1. assert (Ai : active s i = true) by (unfold active; pose proof (Hlo i Hi); lia).
    pose proof (Hseg i j Hi Hj ltac:(congruence)) as M. rewrite (active_group s i j Hi M), Ai. destruct (HG i Hi eq_refl) as (_ & _ & HM). destruct (HM j M) as [_ E]. rewrite E. reflexivity. }
  set (run := fun i => (seg i =? s) && (rts st1 i =? 0)).
  assert (Hrun : forall i, (i < N)%nat -> active s i = false -> run i = false).
  { intros i Hi Ha. unfold run. destruct (Z.eqb_spec (seg i) s) as [E|E]; [|reflexivity]. exfalso. unfold active in Ha. pose proof (Hlo i Hi). lia. }
  apply does_ext with (fun i => if run i then seg_run st1 i else mret (st1 i)).
  { intros i Hi _. destruct (active s i) eqn:Ea; [|rewrite (Hrun i Hi Ea); reflexivity]. unfold run, rts. destruct (Z.eqb_spec (st_rt (st1 i)) 0), (Z.eqb_spec (seg i) s); reflexivity. }
  destruct (existsb run (seq 0 N)) eqn:Ex.
  - apply existsb_exists in Ex. destruct Ex as (i0 & Hi0 & Er). apply in_seq in Hi0. unfold run in Er. apply andb_true_iff in Er. destruct Er as [Es Ez].
    assert (Hall : forall i, (i < N)%nat -> run i = (seg i =? s)).
    { intros i Hi. unfold run. destruct (Z.eqb_spec (seg i) s) as [E|E]; [|reflexivity]. cbn. rewrite (U i0 i); try lia. }
    apply does_split with (S1 := fun i => seg i =? s) (Q1 := fun l' st' f' => Inv (s + 1) (l ++ l') (fun i => if seg i =? s then st' i else st1 i) f').
    + apply does_set with (fun i => seg i =? s); [reflexivity|]. apply does_ext with (seg_run st1). { intros i Hi E. rewrite Hall by auto. rewrite E. reflexivity. }
      apply Irun; [exact HI1|exists i0; lia|]. intros i Hi E. rewrite (U i0 i); try lia.
    + intros l' st' f' HI'. apply does_ext with (fun i => mret (st1 i)). { intros i Hi E. rewrite Hall by auto. cbn in E. destruct (seg i =? s); [discriminate|reflexivity]. }
      apply does_ret. rewrite app_nil_r. exact HI'.
  - assert (Hno : forall i, (i < N)%nat -> run i = false).
    { intros i Hi. destruct (run i) eqn:E; [|reflexivity]. assert (X : existsb run (seq 0 N) = true) by (apply existsb_exists; exists i; split; [apply in_seq; lia|exact E]). congruence. }
    apply does_ext with (fun i => mret (st1 i)). { intros i Hi _. rewrite Hno by auto. reflexivity. }
    apply does_ret. rewrite app_nil_r. apply Iskip; [exact HI1|]. intros i Hi E. specialize (Hno i Hi). unfold run in Hno. lia.
Qed.

Lemma loop_does s1 : (forall i, (i < N)%nat -> hi i <= s1) -> forall m s l st f, s = s1 - Z.of_nat m -> Inv s l st f ->
  does N (fun _ => true) (fun i => segments act (e i) i (sg i) (p i) (off i) (n i) (a i) (Z.max s (lo i)) (Z.to_nat (hi i - Z.max s (lo i))) (st i)) f
    (fun l' st' f' => Inv s1 (l ++ l') st' f').
Proof.
  intros Hh. induction m as [|m IH]; intros s l st f Es HI.
  - apply does_ext with (fun i => mret (st i)). { intros i Hi _. specialize (Hh i Hi). replace (Z.to_nat (hi i - Z.max s (lo i))) with 0%nat by lia. reflexivity. }
    apply does_ret. rewrite app_nil_r. replace s1 with s by lia. exact HI.
  - apply does_ext with (fun i => st' <- (if active s i then seg_step act (e i) i (sg i) (p i) (off i) (n i) (a i) s (st i) else mret (st i)) ;;
      segments act (e i) i (sg i) (p i) (off i) (n i) (a i) (Z.max (s + 1) (lo i)) (Z.to_nat (hi i - Z.max (s + 1) (lo i))) st')%prog.
    { intros i Hi _. destruct (active s i) eqn:Ea; unfold active in Ea; pose proof (Hlo i Hi).
      - replace (Z.max s (lo i)) with s by lia. replace (Z.max (s + 1) (lo i)) with (s + 1) by lia. replace (Z.to_nat (hi i - s)) with (S (Z.to_nat (hi i - (s + 1)))) by lia. reflexivity.
      - destruct (Z_lt_le_dec s (lo i)).
        + replace (Z.max s (lo i)) with (lo i) by lia. replace (Z.max (s + 1) (lo i)) with (lo i) by lia. reflexivity.
        + replace (Z.to_nat (hi i - Z.max s (lo i))) with 0%nat by lia. replace (Z.to_nat (hi i - Z.max (s + 1) (lo i))) with 0%nat by lia. reflexivity. }
    eapply does_bind; [apply step_does; exact HI|]. cbv beta. intros l' st' f' HI'.
    eapply does_mono; [|apply (IH (s + 1) (l ++ l') st' f'); [lia|exact HI']]. cbv beta. intros l2 st2 f2 H2. rewrite app_assoc. exact H2.
Qed.

Lemma segments_does s0 s1 st f : (forall i, (i < N)%nat -> s0 <= lo i /\ hi i <= s1) -> s0 <= s1 -> Inv s0 [] st f ->
  does N (fun _ => true) (fun i => segments act (e i) i (sg i) (p i) (off i) (n i) (a i) (sg_start (sg i)) (Z.to_nat (sg_end (sg i) - sg_start (sg i))) (st i)) f
    (fun l st' f' => Inv s1 l st' f').
Proof.
  intros Hb Hs HI. eapply does_ext; [|apply (loop_does s1 ltac:(apply Hb) (Z.to_nat (s1 - s0)) s0 [] st f); [lia|exact HI]].
  intros i Hi _. destruct (Hb i Hi) as [H1 _]. unfold lo in *. replace (Z.max s0 (sg_start (sg i))) with (sg_start (sg i)) by lia. reflexivity.
Qed.
End Loop.

(* ------------------------------------------------------ segments of ranks *)
Lemma nth_sizes (n : nat -> Z) N i : (i < N)%nat -> nth i (map n (seq 0 N)) 0 = n i.
Proof. intros Hi. apply nth_error_nth. rewrite nth_error_map. rewrite (nth_error_nth' (seq 0 N) 0%nat) by (rewrite seq_length; lia). rewrite seq_nth by lia. reflexivity. Qed.
Lemma index_seq N i : (i < N)%nat -> index (seq 0 N) i = i.
Proof.
  intros Hi. apply (nth_index _ _ _ (seq_NoDup N 0)). rewrite (nth_error_nth' (seq 0 N) 0%nat) by (rewrite seq_length; lia). rewrite seq_nth by lia. reflexivity.
Qed.

Lemma filter_filter {A} (P Q : A -> bool) l : filter P (filter Q l) = filter (fun x => Q x && P x) l.
Proof. induction l as [|x l IH]; [reflexivity|]. cbn. destruct (Q x); cbn; [destruct (P x); rewrite IH; reflexivity|exact IH]. Qed.

Lemma filter_all_true {A} (l : list A) : filter (fun _ => true) l = l.
Proof. induction l as [|x l IH]; [reflexivity|]. cbn. rewrite IH. reflexivity. Qed.
Lemma filter_all_false {A} (P : A -> bool) l : (forall x, In x l -> P x = false) -> filter P l = [].
Proof. induction l as [|x l IH]; intros H; [reflexivity|]. cbn. rewrite (H x (or_introl eq_refl)). apply IH. intros y Hy. apply H. right. exact Hy. Qed.

Lemma seq_sorted m : forall q, StronglySorted (fun i j => (i <= j)%nat) (seq q m).
Proof. induction m as [|m IH]; intros q; cbn [seq]; constructor; auto. rewrite Forall_forall. intros x Hx. apply in_seq in Hx. lia. Qed.

Lemma seq_ordered N id : ordered (mkComm id (seq 0 N)).
Proof. apply seq_sorted. Qed.
Lemma world_family N id : (0 < N)%nat -> family N (fun _ => true) (fun _ => mkComm id (seq 0 N)).
Proof.
  intros HN i Hi _. cbn. split; [|split].
  - constructor; cbn; [apply seq_NoDup|intros j Hj; apply in_seq in Hj; lia|]. destruct N; [lia|discriminate].
  - apply in_seq. lia.
  - intros j Hj. auto.
Qed.


Section Place.
Variables (N : nat) (n : nat -> Z) (limit ng : Z).
Hypothesis Hn : forall i, (i < N)%nat -> 0 <= n i.
Hypothesis HB : zsum (map n (seq 0 N)) < 2 ^ 63.
Hypothesis Hlim : 0 <= limit.
Let s := map n (seq 0 N).
Definition segn (i : nat) : Z := fst (place (Z.of_nat N) s s limit ng i).
Definition grpn (i : nat) : Z := snd (place (Z.of_nat N) s s limit ng i).

Lemma s_len : length s = N. Proof. unfold s. rewrite map_length, seq_length. reflexivity. Qed.
Lemma s_nonneg : Forall (fun x => 0 <= x) s.
Proof. unfold s. apply Forall_map. apply Forall_forall. intros i Hi. apply in_seq in Hi. apply Hn. lia. Qed.
Lemma rawc_range i : (i < N)%nat -> 0 <= rawc limit s s i < Z.of_nat N.
Proof.
  intros Hi. destruct (raw_spec limit Hlim s s eq_refl s_nonneg s_nonneg ltac:(unfold s; lia) ltac:(unfold s; lia)) as (R1 & R2 & _ & R4 & _).
  pose proof (raw_mono limit Hlim s s eq_refl s_nonneg s_nonneg ltac:(unfold s; lia) ltac:(unfold s; lia) 0 i ltac:(lia) ltac:(rewrite s_len; exact Hi)) as M.
  rewrite R2 in M. 2:{ intros X. pose proof s_len as L. rewrite X in L. cbn in L. lia. } split; [apply R4; rewrite s_len; exact Hi|lia].
Qed.
Lemma place_eq i : (i < N)%nat -> place (Z.of_nat N) s s limit ng i =
  if n i =? 0 then (Z.of_nat N + 1, ng + 1) else (rawc limit s s i, u64 (rawc limit s s i * ng) / (List.last (raw limit s s) 0 + 1)).
Proof.
  intros Hi. unfold place. rewrite (assign_eq limit Hlim s s eq_refl s_nonneg s_nonneg) by (unfold s; lia). assert (Es : nth i s 0 = n i) by (unfold s; apply nth_sizes; auto). rewrite Es.
  destruct (Z.eqb_spec (n i) 0) as [E|E]; cbn [andb]; [reflexivity|]. pose proof (rawc_range i Hi). replace (0 <=? rawc limit s s i) with true by lia. reflexivity.
Qed.
Lemma segn_empty i : (i < N)%nat -> n i = 0 -> segn i = Z.of_nat N + 1.
Proof. intros Hi E. unfold segn. rewrite place_eq, E by auto. reflexivity. Qed.
Lemma segn_data i : (i < N)%nat -> 0 < n i -> segn i = rawc limit s s i /\ 0 <= segn i < Z.of_nat N.
Proof. intros Hi E. unfold segn. rewrite place_eq by auto. replace (n i =? 0) with false by lia. cbn. split; [reflexivity|]. apply rawc_range. exact Hi. Qed.
Lemma segn_range i : (i < N)%nat -> 0 <= segn i <= Z.of_nat N + 1.
Proof. intros Hi. destruct (Z.eq_dec (n i) 0) as [E|E]; [rewrite segn_empty by auto; lia|]. destruct (segn_data i Hi) as [_ X]; [pose proof (Hn i Hi); lia|lia]. Qed.
Lemma segn_mono i j : (i <= j)%nat -> (j < N)%nat -> 0 < n i -> 0 < n j -> segn i <= segn j.
Proof.
  intros Hij Hj Pi Pj. destruct (segn_data i ltac:(lia) Pi) as [-> _]. destruct (segn_data j Hj Pj) as [-> _].
  apply (raw_mono limit Hlim s s eq_refl s_nonneg s_nonneg); [unfold s; lia|unfold s; lia|exact Hij|rewrite s_len; exact Hj].
Qed.
Lemma grpn_segn i j : (i < N)%nat -> (j < N)%nat -> segn i = segn j -> grpn i = grpn j.
Proof.
  intros Hi Hj. unfold segn, grpn. rewrite !place_eq by auto. pose proof (rawc_range i Hi). pose proof (rawc_range j Hj).
  destruct (n i =? 0), (n j =? 0); cbn; intros E; try lia. rewrite E. reflexivity.
Qed.

(* A segment exceeds the limit by its last rank at most. *)
Lemma acc_bound i : (i < N)%nat -> sum_over n (filter (fun k => rawc limit s s k =? rawc limit s s i) (seq 0 (S i))) <= limit + n i.
Proof.
  destruct (raw_spec limit Hlim s s eq_refl s_nonneg s_nonneg ltac:(unfold s; lia) ltac:(unfold s; lia)) as (R1 & R2 & _ & R4 & R5).
  assert (A : forall i, (i < N)%nat -> acc 0 0 (raw limit s s) s i = sum_over n (filter (fun k => rawc limit s s k =? rawc limit s s i) (seq 0 (S i)))).
  { intros j Hj. rewrite acc_eq by (first [exact Hlim|exact s_nonneg|reflexivity|unfold s; lia]). unfold sum_over. f_equal. apply map_ext_in. intros k Hk. apply filter_In in Hk. destruct Hk as [Hk _]. apply in_seq in Hk. unfold s. apply nth_sizes. lia. }
  induction i as [|i IH]; intros Hi.
  { cbn [seq filter]. rewrite Z.eqb_refl. unfold sum_over. cbn. lia. }
  specialize (IH ltac:(lia)). specialize (R5 i ltac:(rewrite s_len; lia)). rewrite (A i ltac:(lia)), orb_diag in R5.
  rewrite seq_S, filter_app, sum_over_app. cbn [filter Nat.add]. rewrite Z.eqb_refl. change (sum_over n [S i]) with (n (S i) + 0).
  destruct (Z.ltb_spec limit (sum_over n (filter (fun k => rawc limit s s k =? rawc limit s s i) (seq 0 (S i))))) as [L|L].
  - rewrite filter_all_false; [unfold sum_over; cbn; lia|]. intros k Hk. apply in_seq in Hk.
    pose proof (raw_mono limit Hlim s s eq_refl s_nonneg s_nonneg ltac:(unfold s; lia) ltac:(unfold s; lia) k i ltac:(lia) ltac:(rewrite s_len; lia)). lia.
  - rewrite R5, Z.add_0_r. lia.
Qed.
Lemma seg_bound M s0 : 0 <= M -> (forall i, (i < N)%nat -> n i <= M) -> sum_over n (filter (fun k => segn k =? s0) (seq 0 N)) <= limit + M.
Proof.
  intros HM Hle. destruct (Z.eq_dec s0 (Z.of_nat N + 1)) as [E|E].
  - assert (X : forall l, (forall k, In k l -> (k < N)%nat) -> sum_over n (filter (fun k => segn k =? s0) l) = 0); [|rewrite X; [lia|intros k Hk; apply in_seq in Hk; lia]].
    induction l as [|x l IH]; intros Hl; [reflexivity|]. cbn [filter]. specialize (IH (fun k Hk => Hl k (or_intror Hk))). destruct (Z.eqb_spec (segn x) s0) as [Ex|Ex]; [|exact IH].
    rewrite sum_over_cons, IH. pose proof (Hl x (or_introl eq_refl)) as Hx. pose proof (Hn x Hx). destruct (Z.eq_dec (n x) 0) as [|Z0]; [lia|]. destruct (segn_data x Hx ltac:(lia)). lia.
  - assert (P : forall m, (m <= N)%nat -> sum_over n (filter (fun k => rawc limit s s k =? s0) (seq 0 m)) <= limit + M).
    { induction m as [|m IH]; intros Hm; [unfold sum_over; cbn; lia|]. destruct (Z.eq_dec (rawc limit s s m) s0) as [Em|Em].
      - subst s0. pose proof (acc_bound m ltac:(lia)). pose proof (Hle m ltac:(lia)). lia.
      - rewrite seq_S, filter_app. cbn [filter Nat.add]. replace (rawc limit s s m =? s0) with false by lia. rewrite app_nil_r. apply IH. lia. }
    specialize (P N (le_n N)). refine (Z.le_trans _ _ _ _ P).
    assert (X : forall l, (forall k, In k l -> (k < N)%nat) -> sum_over n (filter (fun k => segn k =? s0) l) <= sum_over n (filter (fun k => rawc limit s s k =? s0) l)); [|apply X; intros k Hk; apply in_seq in Hk; lia].
    induction l as [|x l IH]; intros Hl; [unfold sum_over; cbn; lia|]. cbn [filter]. specialize (IH (fun k Hk => Hl k (or_intror Hk))). pose proof (Hl x (or_introl eq_refl)) as Hx. pose proof (Hn x Hx).
    destruct (Z.eqb_spec (segn x) s0) as [Ex|Ex].
    + assert (Dx : 0 < n x). { destruct (Z.eq_dec (n x) 0) as [Z0|Z0]; [rewrite segn_empty in Ex by auto; lia|lia]. }
      destruct (segn_data x Hx Dx) as [Er _]. replace (rawc limit s s x =? s0) with true by lia. rewrite !sum_over_cons. lia.
    + destruct (rawc limit s s x =? s0); [rewrite sum_over_cons|]; lia.
Qed.

(* What the segmenter gives every rank. *)
Record segs_ok (sg : nat -> segmenter) (ld : nat -> nat) : Prop := {
  so_seg : forall i, (i < N)%nat -> sg_seg (sg i) = segn i;
  so_group : family N (fun _ => true) (fun i => sg_group (sg i));
  so_members : forall i j, (i < N)%nat -> (j < N)%nat -> segn i = segn j -> In j (c_mem (sg_group (sg i)));
  so_uniform : forall i j, (i < N)%nat -> In j (c_mem (sg_group (sg i))) -> sg_start (sg j) = sg_start (sg i) /\ sg_end (sg j) = sg_end (sg i);
  so_bounds : forall i, (i < N)%nat -> 0 <= sg_start (sg i) <= segn i /\ segn i < sg_end (sg i) <= Z.of_nat N + 2;
  so_segment : family N (fun _ => true) (fun i => sg_segment (sg i));
  so_segmem : forall i, (i < N)%nat -> c_mem (sg_segment (sg i)) = filter (fun j => segn j =? segn i) (seq 0 N);
  so_leader : forall i, (i < N)%nat -> nth_error (c_mem (sg_segment (sg i))) (Z.to_nat (sg_leader (sg i))) = Some (ld i);
  so_same : forall i j, (i < N)%nat -> In j (c_mem (sg_segment (sg i))) -> sg_leader (sg j) = sg_leader (sg i)
}.

Lemma segmenter_does id f (Q : list (nat * ParFacts.act) -> (nat -> segmenter) -> fs -> Prop) : (0 < N)%nat ->
  (forall sg ld, segs_ok sg ld -> Q [] sg f) ->
  does N (fun _ => true) (fun i => segmenter_init (mkComm id (seq 0 N)) i s s limit ng) f Q.
Proof.
  intros HN HQ. set (c := mkComm id (seq 0 N)). pose proof (world_family N id HN) as HF. pose proof (seq_ordered N id) as HO. fold c in HF, HO.
  apply does_ext with (fun i => group <- split c (grpn i) (Z.of_nat i) ;;
    first <- allreduce group CInt RMin (segn i) ;;
    last <- allreduce group CInt RMax (segn i) ;;
    leader <- getloc group i CLong RMax (n i) ;;
    _ <- split c (if Z.of_nat (rank_in group i) =? leader then 0 else 1) (Z.of_nat i) ;;
    segment <- split group (segn i) (Z.of_nat i) ;;
    sl <- getloc segment i CLong RMin (n i) ;;
    mret (mkSeg (segn i) first (last + 1) sl group segment))%prog.
  { intros i Hi _. unfold segmenter_init. unfold ntask, rank_in, c. cbn [c_mem]. rewrite index_seq by auto. unfold zlen. rewrite seq_length. assert (Es : nth i s 0 = n i) by (unfold s; apply nth_sizes; auto). rewrite Es.
    unfold grpn, segn. destruct (place (Z.of_nat N) s s limit ng i) as [x y]. reflexivity. }
  apply does_bind with (fun l res f' => l = [] /\ f' = f /\ exists nn : comm -> nat, res = fun i => sub c (nn c) grpn i).
  { apply does_split_comm with (C := fun _ => c); auto; [intros; lia|]. intros nn. split; [reflexivity|]. split; [reflexivity|]. exists nn. reflexivity. }
  intros l1 res1 f1 (-> & -> & nn & ->). cbn [app]. set (G := fun i => sub c (nn c) grpn i).
  assert (HG : family N (fun _ => true) G) by (apply (sub_family N _ (fun _ => c) grpn nn HF)).
  assert (HGO : forall i, ordered (G i)) by (intros i; apply ordered_sub; exact HO).
  assert (GE : forall i j, (i < N)%nat -> In j (c_mem (G i)) -> (j < N)%nat /\ G j = G i).
  { intros i j Hi Hj. destruct (HG i Hi eq_refl) as ([_ HL _] & _ & HM). split; [apply HL; exact Hj|apply (HM j Hj)]. }
  assert (Gne : forall i (g : nat -> Z), (i < N)%nat -> map g (c_mem (G i)) <> []).
  { intros i g Hi X. apply map_eq_nil in X. destruct (HG i Hi eq_refl) as ([_ _ Hne] & _). auto. }
  set (mn := fun i => match map segn (c_mem (G i)) with [] => 0 | x :: r => fold_left Z.min r x end).
  set (mx := fun i => match map segn (c_mem (G i)) with [] => 0 | x :: r => fold_left Z.max r x end).
  apply does_bind with (fun l res f' => l = [] /\ f' = f /\ res = mn).
  { apply does_allreduce with (C := G) (r := mn); auto. }
  intros l1 res1 f1 (-> & -> & ->). cbn [app].
  apply does_bind with (fun l res f' => l = [] /\ f' = f /\ res = mx).
  { apply does_allreduce with (C := G) (r := mx); auto. }
  intros l1 res1 f1 (-> & -> & ->). cbn [app].
  apply does_bind with (fun l res f' => l = [] /\ f' = f).
  { apply does_getloc with (C := G) (m := fun i => match map n (c_mem (G i)) with [] => 0 | x :: r => fold_left Z.max r x end); auto. }
  intros l1 leader f1 (-> & ->). cbn [app].
  apply does_bind with (fun l res f' => l = [] /\ f' = f).
  { apply does_split_comm with (C := fun _ => c) (color := fun i => if Z.of_nat (rank_in (G i) i) =? leader i then 0 else 1); auto; intros; lia. }
  intros l1 ? f1 (-> & ->). cbn [app].
  apply does_bind with (fun l res f' => l = [] /\ f' = f /\ exists n2 : comm -> nat, res = fun i => sub (G i) (n2 (G i)) segn i).
  { apply does_split_comm with (C := G); auto; [intros; lia|]. intros n2. split; [reflexivity|]. split; [reflexivity|]. exists n2. reflexivity. }
  intros l1 res1 f1 (-> & -> & n2 & ->). cbn [app]. set (S2 := fun i => sub (G i) (n2 (G i)) segn i).
  assert (HS2 : family N (fun _ => true) S2) by (apply (sub_family N _ G segn n2 HG)).
  set (m2 := fun i => match map n (c_mem (S2 i)) with [] => 0 | x :: r => fold_left Z.min r x end).
  apply does_bind with (fun l res f' => l = [] /\ f' = f /\ (forall i, (i < N)%nat -> exists q, res i = Z.of_nat q /\ first_at (S2 i) n (m2 i) q) /\
    forall i j, (i < N)%nat -> In j (c_mem (S2 i)) -> res j = res i).
  { apply does_getloc with (C := S2) (m := m2); auto. }
  intros l1 sl f1 (-> & -> & HL1 & HL2). cbn [app].
  apply does_ret. cbn [app]. apply HQ with (ld := fun i => nth (Z.to_nat (sl i)) (c_mem (S2 i)) 0%nat).
  assert (MG : forall i j, (i < N)%nat -> (j < N)%nat -> segn i = segn j -> In j (c_mem (G i))).
  { intros i j Hi Hj E. unfold G, sub. cbn. apply filter_In. split; [apply in_seq; lia|]. rewrite (grpn_segn i j) by auto. apply Z.eqb_refl. }
  constructor; cbn [sg_seg sg_start sg_end sg_leader sg_group sg_segment].
  - reflexivity.
  - exact HG.
  - exact MG.
  - intros i j Hi Hj. destruct (GE i j Hi Hj) as [_ E]. unfold mn, mx. rewrite E. auto.
  - intros i Hi. destruct (HG i Hi eq_refl) as ([_ HL _] & Hin & _).
    destruct (reduce1_min CInt (map segn (c_mem (G i))) (mn i) eq_refl (Gne i segn Hi)) as [A1 A2].
    destruct (reduce1_max CInt (map segn (c_mem (G i))) (mx i) eq_refl (Gne i segn Hi)) as [B1 B2].
    apply in_map_iff in A1. destruct A1 as (j1 & E1 & J1). apply in_map_iff in B1. destruct B1 as (j2 & E2 & J2).
    pose proof (segn_range j1 (HL _ J1)). pose proof (segn_range j2 (HL _ J2)). pose proof (A2 (segn i) (in_map segn _ _ Hin)). pose proof (B2 (segn i) (in_map segn _ _ Hin)). lia.
  - exact HS2.
  - intros i Hi. unfold S2, sub, G, c. cbn. rewrite filter_filter. apply filter_ext_in. intros j Hj. apply in_seq in Hj.
    destruct (Z.eqb_spec (segn j) (segn i)) as [E|E]; [|rewrite ?andb_false_r; reflexivity]. rewrite (grpn_segn j i) by (auto; lia). rewrite Z.eqb_refl. reflexivity.
  - intros i Hi. destruct (HL1 i Hi) as (q & Eq & j & Ej & _). rewrite Eq, Nat2Z.id. change (nth_error (c_mem (S2 i)) q = Some (nth q (c_mem (S2 i)) 0%nat)). rewrite Ej. f_equal. symmetry. apply nth_error_nth. exact Ej.
  - intros i j Hi Hj. apply HL2; auto.
Qed.
End Place.
