(* The collective operations in the program logic. *)
From Coq.Strings Require Import Byte String.
From Coq Require Import List ZArith Lia Bool ZifyBool ZifyNat Sorted.
From Verif Require Import Base BaseFacts FS Attr Block Par Mpi ParFacts SyncFacts VecFacts.
Import ListNotations.
Open Scope Z_scope.

(* ------------------------------------------------------------ reductions *)
Lemma all_some_map {A B} (g : A -> option B) (h : A -> B) l : (forall x, In x l -> g x = Some (h x)) -> all_some (map g l) = Some (map h l).
Proof. induction l as [|x l IH]; intros H; [reflexivity|]. cbn. rewrite H by (left; auto). rewrite IH; [reflexivity|]. intros; apply H; right; auto. Qed.
Lemma gather_all {A} (sel : call -> option A) (x : nat -> call) (g : nat -> A) l : (forall j, In j l -> sel (x j) = Some (g j)) -> gather sel l (fun j => Some (x j)) = Some (map g l).
Proof. intros H. unfold gather. apply all_some_map. intros j Hj. rewrite H; auto. Qed.

Lemma fold_max_ge r : forall x, x <= fold_left Z.max r x /\ forall y, In y r -> y <= fold_left Z.max r x.
Proof.
  induction r as [|a r IH]; intros x; cbn; [split; [lia|tauto]|]. destruct (IH (Z.max x a)) as [I1 I2]. split; [lia|]. intros y [<-|Hy]; [lia|auto].
Qed.
Lemma fold_max_in r : forall x, fold_left Z.max r x = x \/ In (fold_left Z.max r x) r.
Proof.
  induction r as [|a r IH]; intros x; cbn; [auto|]. destruct (IH (Z.max x a)) as [E|E]; [|auto]. rewrite E. destruct (Z.max_spec x a) as [[_ ->]|[_ ->]]; auto.
Qed.
Lemma reduce1_max t l m : reduce1 t RMax l = Some m -> l <> [] -> In m l /\ forall x, In x l -> x <= m.
Proof.
  cbn. intros E H. injection E as <-. destruct l as [|a r]; [contradiction|]. destruct (fold_max_ge r a) as [G1 G2]. split.
  - destruct (fold_max_in r a) as [->|I]; [left; auto|right; auto].
  - intros x [<-|Hx]; auto.
Qed.
Lemma fold_min_le r : forall x, fold_left Z.min r x <= x /\ forall y, In y r -> fold_left Z.min r x <= y.
Proof.
  induction r as [|a r IH]; intros x; cbn; [split; [lia|tauto]|]. destruct (IH (Z.min x a)) as [I1 I2]. split; [lia|]. intros y [<-|Hy]; [lia|auto].
Qed.
Lemma fold_min_in r : forall x, fold_left Z.min r x = x \/ In (fold_left Z.min r x) r.
Proof.
  induction r as [|a r IH]; intros x; cbn; [auto|]. destruct (IH (Z.min x a)) as [E|E]; [|auto]. rewrite E. destruct (Z.min_spec x a) as [[_ ->]|[_ ->]]; auto.
Qed.
Lemma reduce1_min t l m : reduce1 t RMin l = Some m -> l <> [] -> In m l /\ forall x, In x l -> m <= x.
Proof.
  cbn. intros E H. injection E as <-. destruct l as [|a r]; [contradiction|]. destruct (fold_min_le r a) as [G1 G2]. split.
  - destruct (fold_min_in r a) as [->|I]; [left; auto|right; auto].
  - intros x [<-|Hx]; auto.
Qed.

(* ---------------------------------------------------------------- ranks *)
Lemma index_nth l i : In i l -> nth_error l (index l i) = Some i.
Proof.
  induction l as [|j l IH]; intros H; [destruct H|]. cbn. destruct (Nat.eqb_spec j i) as [->|Hn]; [reflexivity|]. cbn. apply IH. destruct H; [contradiction|auto].
Qed.
Lemma nth_index l k i : NoDup l -> nth_error l k = Some i -> index l i = k.
Proof.
  intros H. revert k. induction H as [|j l Hj Hl IH]; intros k E; [destruct k; discriminate|]. destruct k as [|k]; cbn in *.
  - injection E as ->. rewrite Nat.eqb_refl. reflexivity.
  - destruct (Nat.eqb_spec j i) as [->|Hn]; [exfalso; apply Hj; eapply nth_error_In; eauto|]. f_equal. auto.
Qed.
Lemma index_lt l i : In i l -> (index l i < length l)%nat.
Proof. intros H. apply nth_error_Some. rewrite index_nth; [discriminate|exact H]. Qed.
Lemma index_inj l i j : In i l -> In j l -> index l i = index l j -> i = j.
Proof. intros Hi Hj E. pose proof (index_nth l i Hi) as A. pose proof (index_nth l j Hj) as B. rewrite E in A. congruence. Qed.
Lemma index_seq n : forall s i, (s <= i < s + n)%nat -> index (seq s n) i = (i - s)%nat.
Proof.
  induction n as [|n IH]; intros s i H; [lia|]. cbn. destruct (Nat.eqb_spec s i) as [->|Hn]; [lia|]. rewrite IH by lia. lia.
Qed.

(* Splitting with keys in rank order keeps the order. *)
Lemma insert_key_last x l : Forall (fun y => snd y <= snd x) l -> insert_key x l = l ++ [x].
Proof. induction l as [|y l IH]; intros H; [reflexivity|]. inversion_clear H. cbn. replace (snd x <? snd y) with false by lia. rewrite IH by auto. reflexivity. Qed.
Lemma split_members_sorted color (col key : nat -> Z) l : StronglySorted (fun i j => key i <= key j) l ->
  split_members color (map (fun j => (j, col j, key j)) l) = filter (fun j => col j =? color) l.
Proof.
  intros HS. unfold split_members.
  assert (G : forall acc, StronglySorted (fun i j => key i <= key j) l -> Forall (fun y => Forall (fun j => snd y <= key j) l) acc ->
    fold_left (fun acc m => let '(i, c, k) := m in if c =? color then insert_key (i, k) acc else acc) (map (fun j => (j, col j, key j)) l) acc
    = acc ++ map (fun j => (j, key j)) (filter (fun j => col j =? color) l)).
  { clear HS. induction l as [|j l IH]; intros acc HS Ha; [cbn; rewrite app_nil_r; reflexivity|]. inversion_clear HS as [|? ? HS1 HS2]. cbn [map fold_left filter].
    assert (Ha' : Forall (fun y => Forall (fun j => snd y <= key j) l) acc) by (eapply Forall_impl; [|exact Ha]; cbn; intros y Hy; inversion_clear Hy; auto).
    destruct (col j =? color).
    - rewrite IH; auto.
      + rewrite insert_key_last by (eapply Forall_impl; [|exact Ha]; cbn; intros y Hy; inversion_clear Hy; auto). rewrite <- app_assoc. reflexivity.
      + rewrite insert_key_last by (eapply Forall_impl; [|exact Ha]; cbn; intros y Hy; inversion_clear Hy; auto). apply Forall_app. split; [exact Ha'|]. constructor; [exact HS2|constructor].
    - apply IH; auto. }
  rewrite G by (auto; constructor). cbn [app]. rewrite map_map. cbn. apply map_id.
Qed.

Section Coll.
Variable N : nat.
Notation does := (does N).

(* C i is the communicator of rank i in S. *)
Definition family (S : nat -> bool) (C : nat -> comm) : Prop := forall i, (i < N)%nat -> S i = true ->
  comm_ok N (C i) /\ In i (c_mem (C i)) /\ forall j, In j (c_mem (C i)) -> S j = true /\ C j = C i.

Lemma family_sub S T C : family S C -> (forall i j, (i < N)%nat -> S i = true -> In j (c_mem (C i)) -> T j = T i) -> family (fun i => S i && T i) C.
Proof.
  intros H HT i Hi HS. apply andb_true_iff in HS. destruct HS as [S1 S2]. destruct (H i Hi S1) as (A & B & D). split; [exact A|]. split; [exact B|].
  intros j Hj. destruct (D j Hj) as [D1 D2]. split; [|exact D2]. rewrite D1. rewrite (HT i j); auto.
Qed.
Lemma family_ext S T C : (forall i, (i < N)%nat -> S i = T i) -> family S C -> family T C.
Proof.
  intros E H i Hi HT. rewrite <- E in HT by auto. destruct (H i Hi HT) as (A & B & D). split; [exact A|]. split; [exact B|]. intros j Hj. destruct (D j Hj) as [D1 D2]. split; [|exact D2].
  rewrite <- E; [exact D1|]. apply A. exact Hj.
Qed.
Lemma family_one c : comm_ok N c -> family (memb (c_mem c)) (fun _ => c).
Proof.
  intros H i Hi HS. apply memb_In in HS. split; [exact H|]. split; [exact HS|]. intros j Hj. split; [apply memb_In; exact Hj|reflexivity].
Qed.

Lemma calls_intro S C x r : family S C -> (forall i j, (i < N)%nat -> S i = true -> In j (c_mem (C i)) -> compat (x i) (x j)) ->
  (forall i n, (i < N)%nat -> S i = true -> reply (C i) n (fun j => Some (x j)) i = Some (r n i)) -> calls N S C x r.
Proof.
  intros F HC HR i Hi HS. destruct (F i Hi HS) as (A & B & D). split; [exact A|]. split; [exact B|]. split; [|intros n; apply HR; auto].
  intros j Hj. destruct (D j Hj) as [D1 D2]. split; [exact D1|]. split; [exact D2|]. apply HC; auto.
Qed.

Lemma does_barrier S C f (Q : list (nat * act) -> (nat -> val) -> fs -> Prop) : family S C -> Q [] (fun _ => VNone) f -> does S (fun i => barrier (C i)) f Q.
Proof.
  intros F HQ. apply does_coll with (x := fun _ => KBarrier) (r := fun _ _ => VNone); [|intros _; exact HQ].
  apply calls_intro; auto; [intros; exact I|]. intros i n Hi HS. cbn. rewrite (gather_all _ (fun _ => KBarrier) (fun _ => tt)); reflexivity.
Qed.

Lemma does_one S f z (Q : list (nat * act) -> (nat -> Z) -> fs -> Prop) : Q [] z f -> does S (fun i => one (VZs [z i])) f Q.
Proof. intros. apply (does_ret N S z). exact H. Qed.

Lemma does_allreduce S C t op z r f (Q : list (nat * act) -> (nat -> Z) -> fs -> Prop) : family S C ->
  (forall i, (i < N)%nat -> S i = true -> reduce1 t op (map z (c_mem (C i))) = Some (r i)) -> Q [] r f ->
  does S (fun i => allreduce (C i) t op (z i)) f Q.
Proof.
  intros F HR HQ. unfold allreduce.
  apply does_bind with (fun l res f' => l = [] /\ f' = f /\ forall i, res i = VZs [r i]).
  - apply does_coll with (x := fun i => KAllreduce t op [z i]) (r := fun _ i => VZs [r i]); [|auto].
    apply calls_intro; auto; [intros; cbn; auto|]. intros i n Hi HS. unfold reply. cbv iota beta.
    rewrite (gather_all _ (fun j => KAllreduce t op [z j]) (fun j => [z j])) by reflexivity. unfold reduce. cbn [length seq map].
    unfold column. rewrite map_map. cbn [nth]. change (fun x => z x) with z. rewrite (HR i Hi HS). reflexivity.
  - intros l res f' (-> & -> & E). apply does_ext with (fun i => one (VZs [r i])); [intros; rewrite E; reflexivity|]. apply does_one. exact HQ.
Qed.

Lemma does_bcast S C root (n : nat -> Z) (v : nat -> val) src f (Q : list (nat * act) -> (nat -> val) -> fs -> Prop) : family S C ->
  (forall i, (i < N)%nat -> S i = true -> nth_error (c_mem (C i)) (root i) = Some (src i) /\
     forall j, In j (c_mem (C i)) -> root j = root i /\ n j = n i) ->
  Q [] (fun i => v (src i)) f -> does S (fun i => mcoll (C i) (KBcast (root i) (n i) (v i))) f Q.
Proof.
  intros F HR HQ. apply does_coll with (x := fun i => KBcast (root i) (n i) (v i)) (r := fun _ i => v (src i)); [|auto].
  apply calls_intro; auto.
  - intros i j Hi HS Hj. destruct (HR i Hi HS) as [_ R]. destruct (R j Hj) as [R1 R2]. cbn. auto.
  - intros i k Hi HS. destruct (HR i Hi HS) as [E R]. destruct (F i Hi HS) as ([Hnd _ _] & Hin & _). cbn. destruct (Nat.eqb_spec (index (c_mem (C i)) i) (root i)) as [Ei|Ei].
    + f_equal. f_equal. rewrite <- Ei, index_nth in E by auto. congruence.
    + rewrite E. reflexivity.
Qed.
Lemma does_bcast_int S C root n z src f (Q : list (nat * act) -> (nat -> Z) -> fs -> Prop) : family S C ->
  (forall i, (i < N)%nat -> S i = true -> nth_error (c_mem (C i)) (root i) = Some (src i) /\
     forall j, In j (c_mem (C i)) -> root j = root i /\ n j = n i) ->
  Q [] (fun i => z (src i)) f -> does S (fun i => bcast_int (C i) (root i) (n i) (z i)) f Q.
Proof.
  intros F HR HQ. unfold bcast_int. apply does_bind with (fun l res f' => l = [] /\ f' = f /\ forall i, res i = VZs [z (src i)]).
  - apply does_bcast with (v := fun i => VZs [z i]) (src := src); auto.
  - intros l res f' (-> & -> & E). apply does_ext with (fun i => one (VZs [z (src i)])); [intros; rewrite E; reflexivity|]. apply does_one. exact HQ.
Qed.
Lemma does_bcast_bytes S C root n z src f (Q : list (nat * act) -> (nat -> bytes) -> fs -> Prop) : family S C ->
  (forall i, (i < N)%nat -> S i = true -> nth_error (c_mem (C i)) (root i) = Some (src i) /\
     forall j, In j (c_mem (C i)) -> root j = root i /\ n j = n i) ->
  Q [] (fun i => z (src i)) f -> does S (fun i => bcast_bytes (C i) (root i) (n i) (z i)) f Q.
Proof.
  intros F HR HQ. unfold bcast_bytes. apply does_bind with (fun l res f' => l = [] /\ f' = f /\ forall i, res i = VB (z (src i))).
  - apply does_bcast with (v := fun i => VB (z i)) (src := src); auto.
  - intros l res f' (-> & -> & E). apply does_ext with (fun i => data (VB (z (src i)))); [intros; rewrite E; reflexivity|]. apply (does_ret N S (fun i => z (src i))). exact HQ.
Qed.

Lemma does_allgather S C t z f (Q : list (nat * act) -> (nat -> list Z) -> fs -> Prop) : family S C -> Q [] (fun i => map z (c_mem (C i))) f ->
  does S (fun i => allgather (C i) t (z i)) f Q.
Proof.
  intros F HQ. unfold allgather. apply does_bind with (fun l res f' => l = [] /\ f' = f /\ forall i, res i = VZs (map z (c_mem (C i)))).
  - apply does_coll with (x := fun i => KAllgather t (z i)) (r := fun _ i => VZs (map z (c_mem (C i)))); [|auto].
    apply calls_intro; auto; [intros; cbn; auto|]. intros i n Hi HS. cbn. rewrite (gather_all _ (fun j => KAllgather t (z j)) z) by reflexivity. reflexivity.
  - intros l res f' (-> & -> & E). apply does_ext with (fun i => many (VZs (map z (c_mem (C i))))); [intros; rewrite E; reflexivity|].
    apply (does_ret N S (fun i => map z (c_mem (C i)))). exact HQ.
Qed.

Lemma does_gatherv S C root v lens f (Q : list (nat * act) -> (nat -> val) -> fs -> Prop) : family S C ->
  (forall i j, (i < N)%nat -> S i = true -> In j (c_mem (C i)) -> root j = root i) ->
  (forall i, (i < N)%nat -> S i = true -> index (c_mem (C i)) i = root i -> map zlen (map v (c_mem (C i))) = lens i) ->
  Q [] (fun i => if (index (c_mem (C i)) i =? root i)%nat then VBs (map v (c_mem (C i))) else VNone) f ->
  does S (fun i => mcoll (C i) (KGatherv (root i) (v i) (lens i))) f Q.
Proof.
  intros F HR HL HQ. apply does_coll with (x := fun i => KGatherv (root i) (v i) (lens i)) (r := fun _ i => if (index (c_mem (C i)) i =? root i)%nat then VBs (map v (c_mem (C i))) else VNone); [|auto].
  apply calls_intro; auto; [intros i j Hi HS Hj; cbn; symmetry; apply HR; auto|]. intros i n Hi HS. cbn.
  destruct (Nat.eqb_spec (index (c_mem (C i)) i) (root i)) as [E|E]; [|reflexivity].
  rewrite (gather_all _ (fun j => KGatherv (root j) (v j) (lens j)) v) by reflexivity. rewrite (HL i Hi HS E). destruct (list_eq_dec Z.eq_dec (lens i) (lens i)); [reflexivity|contradiction].
Qed.

Lemma does_scatterv S C root src v len r f (Q : list (nat * act) -> (nat -> val) -> fs -> Prop) : family S C ->
  (forall i, (i < N)%nat -> S i = true -> nth_error (c_mem (C i)) (root i) = Some (src i) /\ nth_error (v (src i)) (index (c_mem (C i)) i) = Some (r i) /\ zlen (r i) = len i /\
     forall j, In j (c_mem (C i)) -> root j = root i) ->
  Q [] (fun i => VB (r i)) f -> does S (fun i => mcoll (C i) (KScatterv (root i) (v i) (len i))) f Q.
Proof.
  intros F HR HQ. apply does_coll with (x := fun i => KScatterv (root i) (v i) (len i)) (r := fun _ i => VB (r i)); [|auto].
  apply calls_intro; auto.
  - intros i j Hi HS Hj. cbn. destruct (HR i Hi HS) as (_ & _ & _ & R). symmetry. auto.
  - intros i n Hi HS. destruct (HR i Hi HS) as (R1 & R2 & R3 & _). cbn. rewrite R1, R2. rewrite R3, Z.eqb_refl. reflexivity.
Qed.

(* MPI_Reduce to rank 0 of the communicator. *)
Lemma does_reduce S C t op root v r f (Q : list (nat * act) -> (nat -> val) -> fs -> Prop) : family S C ->
  (forall i j, (i < N)%nat -> S i = true -> In j (c_mem (C i)) -> length (v j) = length (v i)) ->
  (forall i, (i < N)%nat -> S i = true -> index (c_mem (C i)) i = root -> reduce t op (length (v i)) (map v (c_mem (C i))) = Some (r i)) ->
  Q [] (fun i => if (index (c_mem (C i)) i =? root)%nat then VZs (r i) else VNone) f ->
  does S (fun i => mcoll (C i) (KReduce t op root (v i))) f Q.
Proof.
  intros F HL HR HQ. apply does_coll with (x := fun i => KReduce t op root (v i)) (r := fun _ i => if (index (c_mem (C i)) i =? root)%nat then VZs (r i) else VNone); [|auto].
  apply calls_intro; auto; [intros i j Hi HS Hj; cbn; repeat split; symmetry; auto|]. intros i n Hi HS. cbn.
  destruct (Nat.eqb_spec (index (c_mem (C i)) i) root) as [E|E]; [|reflexivity].
  rewrite (gather_all _ (fun j => KReduce t op root (v j)) v) by reflexivity. rewrite (HR i Hi HS E). reflexivity.
Qed.

(* Splitting with the world ranks, or another increasing numbering, as keys. *)
Definition sub (c : comm) (n : nat) (color : nat -> Z) (i : nat) : comm :=
  mkComm (c_id c ++ [(n, color i)]) (filter (fun j => color j =? color i) (c_mem c)).
Definition ordered (c : comm) : Prop := StronglySorted (fun i j => (i <= j)%nat) (c_mem c).
Lemma ordered_sub c n color a : ordered c -> ordered (sub c n color a).
Proof.
  unfold ordered, sub; cbn. induction (c_mem c) as [|j l IH]; intros H; [constructor|]. inversion_clear H as [|? ? H1 H2]. cbn. destruct (color j =? color a); auto. constructor; auto.
  rewrite Forall_forall in *. intros x Hx. apply filter_In in Hx. apply H2. apply Hx.
Qed.
Lemma sub_ok c n color i : comm_ok N c -> In i (c_mem c) -> comm_ok N (sub c n color i).
Proof.
  intros [A B D] Hi. constructor; cbn.
  - apply NoDup_filter. exact A.
  - intros j Hj. apply filter_In in Hj. apply B. apply Hj.
  - intros E. assert (X : In i (filter (fun j => color j =? color i) (c_mem c))) by (apply filter_In; split; [exact Hi|apply Z.eqb_refl]). rewrite E in X. destruct X.
Qed.
Lemma sub_family S C color (nn : comm -> nat) : family S C -> family S (fun i => sub (C i) (nn (C i)) color i).
Proof.
  intros F i Hi HS. destruct (F i Hi HS) as (A & B & D). split; [apply sub_ok; auto|]. cbn. split; [apply filter_In; split; [exact B|apply Z.eqb_refl]|].
  intros j Hj. apply filter_In in Hj. destruct Hj as [Hj E]. destruct (D j Hj) as [D1 D2]. split; [exact D1|]. apply Z.eqb_eq in E. unfold sub. rewrite D2, E. reflexivity.
Qed.

Lemma combine_map {A B} (g : A -> B) l : combine l (map g l) = map (fun x => (x, g x)) l.
Proof. induction l as [|x l IH]; [reflexivity|]. cbn. rewrite IH. reflexivity. Qed.
Lemma does_split_comm S C color key f (Q : list (nat * act) -> (nat -> comm) -> fs -> Prop) : family S C -> (forall i, (i < N)%nat -> S i = true -> ordered (C i)) ->
  (forall i j, (i <= j)%nat -> key i <= key j) ->
  (forall nn : comm -> nat, Q [] (fun i => sub (C i) (nn (C i)) color i) f) -> does S (fun i => split (C i) (color i) (key i)) f Q.
Proof.
  intros F HO HK HQ. unfold split. apply does_bind with (fun l res f' => l = [] /\ f' = f /\ exists nn : comm -> nat, forall i, res i = VComm (sub (C i) (nn (C i)) color i)).
  - apply does_coll with (x := fun i => KSplit (color i) (key i)) (r := fun n i => VComm (sub (C i) n color i)).
    + apply calls_intro; auto; [intros; exact I|]. intros i n Hi HS. cbn. rewrite (gather_all _ (fun j => KSplit (color j) (key j)) (fun j => (color j, key j))) by reflexivity.
      rewrite combine_map, map_map. cbn. unfold sub. do 2 f_equal. f_equal. rewrite (split_members_sorted (color i) color key); [reflexivity|].
      eapply StronglySorted_ind with (P := fun l => StronglySorted (fun i j => key i <= key j) l); [constructor| |apply (HO i Hi HS)].
      intros a l _ IH HF. constructor; [exact IH|]. rewrite Forall_forall in *. intros x Hx. apply HK. auto.
    + intros nn. split; [reflexivity|]. split; [reflexivity|]. exists nn. reflexivity.
  - intros l res f' (-> & -> & nn & E). apply does_ext with (fun i => subcomm (VComm (sub (C i) (nn (C i)) color i))); [intros; rewrite E; reflexivity|].
    apply (does_ret N S (fun i => sub (C i) (nn (C i)) color i)). apply HQ.
Qed.

(* -------------------------------------------------------- anyerror *)
(* The last member that reports an error. *)
Definition last_bad (l : list nat) (rt : nat -> Z) : option nat := find (fun j => negb (rt j =? 0)) (rev l).
Lemma last_bad_none l rt : last_bad l rt = None <-> forall j, In j l -> rt j = 0.
Proof.
  unfold last_bad. split.
  - intros H j Hj. pose proof (find_none _ _ H j ltac:(rewrite <- in_rev; exact Hj)) as E. cbn in E. lia.
  - intros H. destruct (find _ _) as [j|] eqn:E; [|reflexivity]. apply find_some in E. destruct E as [E1 E2]. rewrite <- in_rev in E1. rewrite (H j E1) in E2. discriminate.
Qed.
Lemma last_bad_app l1 l2 rt : last_bad (l1 ++ l2) rt = match last_bad l2 rt with Some j => Some j | None => last_bad l1 rt end.
Proof.
  unfold last_bad. rewrite rev_app_distr. generalize (rev l2). intros l. induction l as [|x l IH]; [reflexivity|]. cbn. destruct (negb (rt x =? 0)); auto.
Qed.
Lemma max_report l rt : l <> [] -> exists m, reduce1 CInt RMax (map (fun j => if rt j =? 0 then 0 else Z.of_nat (index l j) + 1) l) = Some m /\
  match NoDup l -> m = match last_bad l rt with None => 0 | Some j => Z.of_nat (index l j) + 1 end with X => X end.
Proof.
  intros Hne. eexists. split; [reflexivity|]. intros Hnd.
  destruct (reduce1_max CInt (map (fun j => if rt j =? 0 then 0 else Z.of_nat (index l j) + 1) l) _ eq_refl) as [M1 M2].
  { intros X. apply map_eq_nil in X. auto. }
  cbv zeta. set (m := match map _ l with [] => 0 | x :: r => fold_left Z.max r x end) in *. clearbody m.
  destruct (last_bad l rt) as [j|] eqn:E.
  - assert (Hj : In j l /\ rt j <> 0).
    { unfold last_bad in E. apply find_some in E. destruct E as [E1 E2]. rewrite <- in_rev in E1. split; [exact E1|lia]. }
    destruct Hj as [Hj Hr].
    apply in_map_iff in M1. destruct M1 as (k & Hk & Hkl).
    assert (X : Z.of_nat (index l j) + 1 <= m).
    { apply M2. apply in_map_iff. exists j. split; [|exact Hj]. destruct (Z.eqb_spec (rt j) 0); [contradiction|reflexivity]. }
    destruct (Z.eqb_spec (rt k) 0) as [Ek|Ek]; [lia|].
    destruct (Nat.lt_trichotomy (index l k) (index l j)) as [L|[L|L]]; [lia|lia|].
    exfalso. destruct (nth_error_split l (index l j) (index_nth l j Hj)) as (l1 & l2 & El & Ll).
    assert (Hk2 : In k l2).
    { pose proof (index_nth l k Hkl) as Hkn. rewrite El in Hkn at 1. rewrite nth_error_app2 in Hkn by lia. destruct (index l k - length l1)%nat eqn:Ed; [lia|]. cbn in Hkn. eapply nth_error_In; eauto. }
    rewrite El in E. rewrite last_bad_app in E. change (j :: l2) with ([j] ++ l2) in E. rewrite last_bad_app in E.
    destruct (last_bad l2 rt) as [j2|] eqn:E2.
    + injection E as ->. unfold last_bad in E2. apply find_some in E2. destruct E2 as [E2 _]. rewrite <- in_rev in E2. rewrite El in Hnd. apply NoDup_remove_2 in Hnd. apply Hnd. apply in_or_app. auto.
    + rewrite last_bad_none in E2. apply Ek. auto.
  - rewrite last_bad_none in E. apply in_map_iff in M1. destruct M1 as (k & Hk & Hkl). rewrite (E k Hkl) in Hk. cbn in Hk. lia.
Qed.

Definition outcome (c : comm) (rt : nat -> Z) (msg : nat -> bytes) (i : nat) : Z * bytes :=
  match last_bad (c_mem c) rt with None => (0, msg i) | Some j => (rt j, msg j) end.
Lemma last_bad_in l rt j : last_bad l rt = Some j -> In j l /\ rt j <> 0.
Proof. unfold last_bad. intros E. apply find_some in E. destruct E as [E1 E2]. rewrite <- in_rev in E1. split; [exact E1|lia]. Qed.

(* The rest of the agreement, after its first step. *)
Definition err_root (c : comm) (rt : nat -> Z) : Z := match last_bad (c_mem c) rt with None => 0 | Some j => Z.of_nat (index (c_mem c) j) + 1 end.
Definition err_tail (c : comm) (me : nat) (rt : Z) (msg : bytes) (root : Z) : M (Z * bytes) := (
  if root =? 0 then mret (0, msg) else
  let root := Z.to_nat (root - 1) in
  errorlen <- bcast_int c root 4 (zlen msg) ;;
  error <- bcast_bytes c root (errorlen + 1) msg ;;
  let msg := if (rank_in c me =? root)%nat then msg else error in
  rt <- bcast_int c root 4 rt ;;
  mret (rt, msg))%prog.
Lemma err_reduce S C rt i : family S C -> (i < N)%nat -> S i = true ->
  reduce1 CInt RMax (map (fun i => if rt i =? 0 then 0 else Z.of_nat (rank_in (C i) i) + 1) (c_mem (C i))) = Some (err_root (C i) rt).
Proof.
  intros F Hi HS. destruct (F i Hi HS) as ([Hnd HN Hne] & Hin & HM).
  destruct (max_report (c_mem (C i)) rt Hne) as (m & E & Em). specialize (Em Hnd). unfold err_root. rewrite <- Em, <- E. f_equal.
  apply map_ext_in. intros j Hj. destruct (HM j Hj) as [_ Ej]. unfold rank_in. rewrite Ej. reflexivity.
Qed.
Lemma does_err_tail S C rt msg f (Q : list (nat * act) -> (nat -> Z * bytes) -> fs -> Prop) : family S C ->
  (forall res, (forall i, (i < N)%nat -> S i = true -> res i = outcome (C i) rt msg i) -> Q [] res f) ->
  does S (fun i => err_tail (C i) i (rt i) (msg i) (err_root (C i) rt)) f Q.
Proof.
  intros F HQ.
  set (bad := fun i => last_bad (c_mem (C i)) rt).
  set (root := fun i => match bad i with None => 0 | Some j => Z.of_nat (index (c_mem (C i)) j) + 1 end).
  change (does S (fun i => err_tail (C i) i (rt i) (msg i) (root i)) f Q). unfold err_tail.
  apply does_split with (S1 := fun i => root i =? 0) (Q1 := fun l res f' => l = [] /\ f' = f /\ forall i, (i < N)%nat -> S i = true -> root i = 0 -> res i = outcome (C i) rt msg i).
  { apply does_ext with (fun i => mret (0, msg i)); [intros i Hi HS; replace (root i =? 0) with true by lia; reflexivity|].
    apply does_ret. split; [reflexivity|]. split; [reflexivity|]. intros i Hi HS E. unfold outcome, root, bad in *. destruct (last_bad _ _); [lia|reflexivity]. }
  intros l res0 f' (-> & -> & R0). cbn [app].
  set (S2 := fun i => S i && negb (root i =? 0)).
  assert (F2 : family S2 C).
  { apply family_sub; [exact F|]. intros i j Hi HS Hj. destruct (F i Hi HS) as (_ & _ & HM). destruct (HM j Hj) as [_ Ej]. unfold root, bad. rewrite Ej. reflexivity. }
  set (src := fun i => match bad i with Some j => j | None => i end).
  assert (HR : forall i, (i < N)%nat -> S2 i = true -> nth_error (c_mem (C i)) (Z.to_nat (root i - 1)) = Some (src i) /\ forall j, In j (c_mem (C i)) -> root j = root i /\ src j = src i).
  { intros i Hi HS. destruct (F2 i Hi HS) as ([Hnd HN Hne] & Hin & HM). unfold S2 in HS. apply andb_true_iff in HS. destruct HS as [HS Hz]. split.
    - unfold root, src in *. destruct (bad i) as [j|] eqn:Eb; [|lia]. replace (Z.to_nat (Z.of_nat (index (c_mem (C i)) j) + 1 - 1)) with (index (c_mem (C i)) j) by lia. apply index_nth. apply last_bad_in in Eb. apply Eb.
    - intros j Hj. destruct (HM j Hj) as [_ Ej]. unfold root, src, bad in *. rewrite Ej. split; [reflexivity|]. destruct (last_bad (c_mem (C i)) rt); [reflexivity|lia]. }
  apply does_ext with (fun i => errorlen <- bcast_int (C i) (Z.to_nat (root i - 1)) 4 (zlen (msg i)) ;;
     error <- bcast_bytes (C i) (Z.to_nat (root i - 1)) (errorlen + 1) (msg i) ;;
     rt <- bcast_int (C i) (Z.to_nat (root i - 1)) 4 (rt i) ;;
     mret (rt, if (rank_in (C i) i =? Z.to_nat (root i - 1))%nat then msg i else error))%prog.
  { intros i Hi HS. unfold S2 in HS. replace (root i =? 0) with false by lia. reflexivity. }
  apply does_bind with (fun l res f' => l = [] /\ f' = f /\ res = fun i => zlen (msg (src i))).
  { apply does_bcast_int with (n := fun _ => 4) (z := fun i => zlen (msg i)) (src := src); auto. intros i Hi HS. destruct (HR i Hi HS) as [R1 R2]. split; [exact R1|]. intros j Hj. destruct (R2 j Hj) as [-> _]. auto. }
  intros l res1 f' (-> & -> & ->).
  apply does_bind with (fun l res f' => l = [] /\ f' = f /\ res = fun i => msg (src i)).
  { apply does_bcast_bytes with (n := fun i => zlen (msg (src i)) + 1) (src := src); auto. intros i Hi HS. destruct (HR i Hi HS) as [R1 R2]. split; [exact R1|]. intros j Hj. destruct (R2 j Hj) as [-> ->]. auto. }
  intros l res1 f' (-> & -> & ->).
  apply does_bind with (fun l res f' => l = [] /\ f' = f /\ res = fun i => rt (src i)).
  { apply does_bcast_int with (n := fun _ => 4) (z := rt) (src := src); auto. intros i Hi HS. destruct (HR i Hi HS) as [R1 R2]. split; [exact R1|]. intros j Hj. destruct (R2 j Hj) as [-> _]. auto. }
  intros l res1 f' (-> & -> & ->). apply (does_ret N S2 (fun i => (rt (src i), if (rank_in (C i) i =? Z.to_nat (root i - 1))%nat then msg i else msg (src i)))).
  cbn [app]. apply HQ. intros i Hi HS. destruct (Z.eqb_spec (root i) 0) as [E|E]; [apply R0; auto|].
  assert (HS2 : S2 i = true) by (unfold S2; lia). destruct (HR i Hi HS2) as [R1 _].
  unfold outcome. unfold src in *. fold (bad i). destruct (bad i) as [j|] eqn:Eb; [|unfold root, bad in *; rewrite Eb in E; contradiction].
  f_equal. destruct (Nat.eqb_spec (rank_in (C i) i) (Z.to_nat (root i - 1))) as [Er|Er]; [|reflexivity].
  f_equal. destruct (F i Hi HS) as (_ & Hin & _). unfold rank_in in Er. rewrite <- Er, index_nth in R1 by auto. congruence.
Qed.

Lemma does_anyerror S C rt msg f (Q : list (nat * act) -> (nat -> Z * bytes) -> fs -> Prop) : family S C ->
  (forall res, (forall i, (i < N)%nat -> S i = true -> res i = outcome (C i) rt msg i) -> Q [] res f) ->
  does S (fun i => anyerror (C i) i (rt i) (msg i)) f Q.
Proof.
  intros F HQ. change (does S (fun i => mbind (allreduce (C i) CInt RMax (if rt i =? 0 then 0 else Z.of_nat (rank_in (C i) i) + 1)) (err_tail (C i) i (rt i) (msg i))) f Q).
  apply does_bind with (fun l res f' => l = [] /\ f' = f /\ res = fun i => err_root (C i) rt).
  { apply does_allreduce with (z := fun i => if rt i =? 0 then 0 else Z.of_nat (rank_in (C i) i) + 1) (r := fun i => err_root (C i) rt); auto.
    intros i Hi HS. eapply err_reduce; eauto. }
  intros l res f' (-> & -> & ->). cbn [app]. apply does_err_tail; auto.
Qed.

(* The code alone. *)
Definition verdict (c : comm) (rt : nat -> Z) : Z := match last_bad (c_mem c) rt with None => 0 | Some j => rt j end.
Lemma does_agree S C rt f (Q : list (nat * act) -> (nat -> Z) -> fs -> Prop) : family S C ->
  (forall res, (forall i, (i < N)%nat -> S i = true -> res i = verdict (C i) rt) -> Q [] res f) ->
  does S (fun i => agree (C i) i (rt i)) f Q.
Proof.
  intros F HQ. unfold agree. apply does_bind with (fun l res f' => l = [] /\ f' = f /\ forall i, (i < N)%nat -> S i = true -> fst (res i) = verdict (C i) rt).
  - apply does_anyerror with (msg := fun _ => []); auto. intros res HR. split; [reflexivity|]. split; [reflexivity|]. intros i Hi HS. rewrite HR by auto. unfold outcome, verdict. destruct (last_bad _ _); reflexivity.
  - intros l res f' (-> & -> & R). apply does_ext with (fun i => mret (fst (res i))); [intros i Hi HS; destruct (res i); reflexivity|]. apply does_ret. apply HQ. exact R.
Qed.
Lemma verdict_zero c rt : verdict c rt = 0 <-> forall j, In j (c_mem c) -> rt j = 0.
Proof.
  unfold verdict. rewrite <- last_bad_none. destruct (last_bad (c_mem c) rt) as [j|] eqn:E; [|tauto]. apply last_bad_in in E. split; [intros; tauto|discriminate].
Qed.

(* -------------------------------------------------------- getloc *)
(* The first member that holds the extreme value. *)
Definition first_at (c : comm) (v : nat -> Z) (m : Z) (loc : nat) : Prop :=
  exists j, nth_error (c_mem c) loc = Some j /\ v j = m /\ forall k q, (k < loc)%nat -> nth_error (c_mem c) k = Some q -> v q <> m.
Lemma does_getloc S C t op v m f (Q : list (nat * act) -> (nat -> Z) -> fs -> Prop) : family S C -> op = RMax \/ op = RMin ->
  (forall i, (i < N)%nat -> S i = true -> reduce1 t op (map v (c_mem (C i))) = Some (m i)) ->
  (forall res, (forall i, (i < N)%nat -> S i = true -> exists k, res i = Z.of_nat k /\ first_at (C i) v (m i) k) ->
     (forall i j, (i < N)%nat -> S i = true -> In j (c_mem (C i)) -> res j = res i) -> Q [] res f) ->
  does S (fun i => getloc (C i) i t op (v i)) f Q.
Proof.
  intros F Hop Hm HQ. unfold getloc. apply does_bind with (fun l res f' => l = [] /\ f' = f /\ res = m).
  { apply does_allreduce with (r := m); auto. }
  intros l res f' (-> & -> & ->). cbn [app].
  set (z := fun i => if v i =? m i then Z.of_nat (rank_in (C i) i) else ntask (C i)).
  set (r := fun i => match map z (c_mem (C i)) with [] => 0 | x :: r => fold_left Z.min r x end).
  apply does_allreduce with (z := z) (r := r); auto.
  assert (HC : forall i j, (i < N)%nat -> S i = true -> In j (c_mem (C i)) -> C j = C i) by (intros i j Hi HS Hj; destruct (F i Hi HS) as (_ & _ & D); apply (D j Hj)).
  assert (Hmm : forall i j, (i < N)%nat -> S i = true -> In j (c_mem (C i)) -> m j = m i).
  { intros i j Hi HS Hj. destruct (F i Hi HS) as ([_ HN _] & _ & D). destruct (D j Hj) as [D1 D2]. pose proof (Hm i Hi HS) as E1. pose proof (Hm j (HN j Hj) D1) as E2. rewrite D2 in E2. congruence. }
  apply HQ; [|intros i j Hi HS Hj; unfold r; rewrite (HC i j); auto].
  intros i Hi HS. destruct (F i Hi HS) as ([Hnd HN Hne] & Hin & HM).
  assert (Hmi : In (m i) (map v (c_mem (C i)))).
  { assert (Hne' : map v (c_mem (C i)) <> []) by (intros X; apply map_eq_nil in X; auto). pose proof (Hm i Hi HS) as E.
    destruct Hop as [-> | ->]; [apply (reduce1_max t _ _ E Hne')|apply (reduce1_min t _ _ E Hne')]. }
  apply in_map_iff in Hmi. destruct Hmi as (j0 & Ej0 & Hj0).
  destruct (reduce1_min CInt (map z (c_mem (C i))) (r i) eq_refl) as [R1 R2]. { intros X. apply map_eq_nil in X. auto. }
  assert (Zin : forall j, In j (c_mem (C i)) -> z j = if v j =? m i then Z.of_nat (index (c_mem (C i)) j) else zlen (c_mem (C i))).
  { intros j Hj. unfold z, rank_in, ntask. rewrite (HC i j), (Hmm i j) by auto. reflexivity. }
  assert (Zj0 : r i <= Z.of_nat (index (c_mem (C i)) j0)).
  { apply R2. apply in_map_iff. exists j0. split; [|exact Hj0]. rewrite Zin by auto. rewrite Ej0, Z.eqb_refl. reflexivity. }
  pose proof (index_lt _ _ Hj0) as Lj0.
  apply in_map_iff in R1. destruct R1 as (j & Ej & Hj). rewrite Zin in Ej by auto. destruct (Z.eqb_spec (v j) (m i)) as [Ev|Ev]; [|unfold zlen in Ej; lia].
  exists (index (c_mem (C i)) j). split; [symmetry; exact Ej|]. exists j. split; [apply index_nth; exact Hj|]. split; [exact Ev|].
  intros k q Hk Hq Ecq. assert (Hqi : In q (c_mem (C i))) by (eapply nth_error_In; eauto).
  pose proof (nth_index _ _ _ Hnd Hq) as Iq.
  assert (X : r i <= z q) by (apply R2; apply in_map; exact Hqi). rewrite Zin in X by auto. rewrite Ecq, Z.eqb_refl in X. lia.
Qed.
End Coll.
