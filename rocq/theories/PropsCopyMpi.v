(* Property C55: bigfile-copy-mpi hands out every row once and finishes.
   A run is any order of the steps of the processes, any order in which the
   server receives messages and any outcome of the copying. *)
From Coq Require Import List ZArith Lia Bool.
From Verif Require Import CopyMpi CopyMpiFacts.
Import ListNotations.
Open Scope Z_scope.

(* Full statement: the items partition the rows of the block, each is
   processed by one worker, and all processes finish. First half, at every
   point of every run, whatever MPI_Send waits for: no row is in two items,
   every item is a piece of at most chunk rows of the block, and when
   everybody has returned and nothing failed, each row was copied exactly once. *)
Theorem C55_rows : forall eager n size chunk k s,
  0 < size < 2 ^ 62 -> 0 < chunk < 2 ^ 62 -> cruns eager size k (c_start n size chunk) s ->
  (forall r, (times r (all_items s) <= 1)%nat)
  /\ Forall (fun x => 0 <= fst (fst x) /\ 0 < snd (fst x) <= chunk /\ fst (fst x) + snd (fst x) <= size) (all_items s)
  /\ (all_done s -> no_failure s -> forall r, 0 <= r < size -> times r (all_items s) = 1%nat).
Proof.
  intros eager n size chunk k s Hs Hc H. pose proof (rows_reach _ _ _ _ _ _ Hs Hc H) as (_ & Hg & E & HE & Hh & Hsrv).
  split; [|split].
  - intros r. pose proof (hits_items r (c_ws s)) as H1. rewrite Hh in H1. unfold all_items.
    destruct ((0 <=? r) && (r <? E))%bool; lia.
  - apply Forall_forall. intros x Hx. rewrite Forall_forall in Hg. apply (Hg (fst x)). apply held_items. exact Hx.
  - intros Hd Hf r Hr. rewrite <- (hits_done r n s (cm_reach _ _ _ _ _ _ H) Hd), Hh.
    destruct Hd as [Hd _]. rewrite Hd in Hsrv. destruct Hsrv as [->|Hx]; [|destruct (failed_iff s Hf Hx)].
    replace ((0 <=? r) && (r <? size))%bool with true by lia. reflexivity.
Qed.

(* Second half, with at least two processes, if MPI keeps the messages: no
   process waits forever, also after a failure, and the number of steps is
   bounded. All three conditions are needed, see below. *)
Theorem C55_finishes_partial : forall n size chunk k s,
  (0 < n)%nat -> 0 < size < 2 ^ 62 -> 0 < chunk < 2 ^ 62 -> cruns true size k (c_start n size chunk) s ->
  Z.of_nat k <= 10 * size + 7 * Z.of_nat n + 3 /\ (all_done s \/ exists s', cstep true size s s').
Proof.
  intros n size chunk k s Hn Hs Hc H. pose proof (rows_reach _ _ _ _ _ _ Hs Hc H) as Hr. pose proof (cm_reach _ _ _ _ _ _ H) as Hi. split.
  - pose proof (mu_runs _ _ _ _ _ _ Hs Hc H) as H1. rewrite mu_start in H1 by lia. pose proof (mu_nonneg _ _ _ _ Hi Hr). lia.
  - destruct (cm_progress size n s Hn Hi) as [H1|(s' & H1 & _)]; eauto.
    destruct Hr as (_ & _ & E & _ & _ & HE). intros HH. rewrite HH in HE. exact HE.
Qed.

Lemma cr_cons : forall eager size k s1 s2 s3, cstep eager size s1 s2 -> cruns eager size k s2 s3 -> cruns eager size (S k) s1 s3.
Proof. intros eager size k s1 s2 s3 H1 H2. revert H1. induction H2 as [s|k s2 s3 s4 H2 IH Hs]; intros H1; [apply (cr_step _ _ 0 s1 s1); [constructor|exact H1]|apply (cr_step _ _ _ _ s3); auto]. Qed.
Tactic Notation "go" uconstr(c) := refine (cr_cons _ _ _ _ _ _ c _); cbn [app length s_cut s_head Z.add Z.ltb Z.compare Pos.add Pos.compare Pos.compare_cont Z.sub Z.opp Pos.sub Z.pos_sub Pos.succ Pos.add_carry Pos.pred_double].

(* 4 rows in chunks of 3, two workers: the second takes the first chunk, both copy. *)
Example C55_example : exists k s, cruns true 4 k (c_start 2 4 3) s /\ all_done s /\ no_failure s /\ map w_log (c_ws s) = [[(3, 1, true)]; [(0, 3, true)]].
Proof.
  eexists _, _. split.
  { unfold c_start, s_head. cbn [repeat Z.ltb Z.compare].
    go (cs_send _ _ _ [_] _ _ _ _ _). go (cs_hand _ _ 0 3 [_] _ _ _ _ _ eq_refl). go (cs_send _ _ _ [] _ _ _ _ _).
    go (cs_handed _ _ _ _ [_] _ _ _ _ _ (or_introl eq_refl)). go (cs_hand _ _ 3 3 [] _ _ _ _ _ eq_refl).
    go (cs_sent _ _ _ [] _ _ _ _ (or_introl eq_refl)). go (cs_sent _ _ _ [_] _ _ _ _ (or_introl eq_refl)).
    go (cs_work _ _ _ [] _ _ _ _ _ _). go (cs_work _ _ _ [_] _ _ _ _ _ _). go (cs_done _ _ _ [_] _ _ _ _ _ _). go (cs_done _ _ _ [] _ _ _ _ _ _).
    go (cs_handed _ _ _ _ [] _ _ _ _ _ (or_introl eq_refl)). go (cs_kill _ _ [] _ _ _ _ _). go (cs_killed _ _ [] _ _ _ _ _ (or_introl eq_refl)).
    go (cs_kill _ _ [_] _ _ _ _ _). go (cs_killed _ _ [_] _ _ _ _ _ (or_introl eq_refl)). go (cs_end _ _ [_; _]).
    go (cs_send _ _ _ [] _ _ _ _ _). go (cs_send _ _ _ [_] _ _ _ _ _). go (cs_sent _ _ _ [] _ _ _ _ (or_introl eq_refl)). go (cs_sent _ _ _ [_] _ _ _ _ (or_introl eq_refl)).
    go (cs_die _ _ _ [] _ _ _ _). go (cs_die _ _ _ [_] _ _ _ _). apply cr_nil. }
  split; [split; [reflexivity|repeat constructor]|]. split; [repeat constructor|reflexivity].
Qed.

(* A worker may fail: 4 rows in chunks of 1, one worker that fails on the
   first. All processes finish, main returns 0 (copy-mpi.c:110-117 do not look
   at the outcome), and rows 1 to 3 were never copied. *)
Theorem C55_failure_unreported : exists k s, cruns true 4 k (c_start 1 4 1) s /\ all_done s /\ (forall r, 1 <= r < 4 -> times r (all_items s) = 0%nat).
Proof.
  eexists _, _. split.
  { unfold c_start, s_head. cbn [repeat Z.ltb Z.compare].
    go (cs_send _ _ _ [] _ _ _ _ _). go (cs_hand _ _ 0 1 [] _ _ _ _ _ eq_refl). go (cs_handed _ _ _ _ [] _ _ _ _ _ (or_introl eq_refl)).
    go (cs_sent _ _ _ [] _ _ _ _ (or_introl eq_refl)). go (cs_work _ _ _ [] _ _ _ _ _ _). go (cs_fail _ _ _ [] _ _ _ _ _ _).
    go (cs_send _ _ _ [] _ _ _ _ _). go (cs_break _ _ _ _ [] _ _ _ _ _). go (cs_sent _ _ _ [] _ _ _ _ (or_introl eq_refl)).
    go (cs_kill _ _ [] _ _ _ _ _). go (cs_killed _ _ [] _ _ _ _ _ (or_introl eq_refl)). go (cs_end _ _ [_]). go (cs_die _ _ _ [] _ _ _ _).
    apply cr_nil. }
  split; [split; [reflexivity|repeat constructor]|].
  intros r Hr. unfold times, all_items. cbn [c_ws map concat w_log app filter fst snd].
  replace ((0 <=? r) && (r <? 0 + 1))%bool with false by lia. reflexivity.
Qed.

(* With one process the server waits for ever. *)
Theorem C55_one_process_refuted : forall eager size chunk, 0 < size ->
  ~ all_done (c_start 0 size chunk) /\ (forall s, ~ cstep eager size (c_start 0 size chunk) s).
Proof.
  intros eager size chunk Hs. unfold c_start, s_head. replace (0 <? size) with true by lia. split.
  - intros [H _]. discriminate H.
  - intros s H. remember (mkC (S_Recv 0 chunk) (repeat (mkW (W_Send DONE) [] [] []) 0)) as s0 eqn:E.
    destruct H; injection E; cbn [repeat]; intros; subst; try discriminate; destruct l1; discriminate.
Qed.

(* If MPI_Send waits for the receiver, which MPI allows, no run in which
   everything was copied ends: the server never receives the last answers. *)
Theorem C55_unbuffered_refuted : forall n size chunk k s,
  (0 < n)%nat -> 0 < size < 2 ^ 62 -> 0 < chunk < 2 ^ 62 -> cruns false size k (c_start n size chunk) s -> no_failure s -> ~ all_done s.
Proof.
  intros n size chunk k s Hn Hs Hc H Hf [_ Hd]. pose proof (wsy_reach _ _ _ _ _ Hs Hc H) as Hy.
  destruct (cm_reach _ _ _ _ _ _ H) as (Hl & _). destruct (c_ws s) as [|w ws] eqn:E; [cbn in Hl; lia|].
  inversion Hy as [|? ? H1 _]; subst. inversion Hd as [|? ? H2 _]; subst. destruct H1 as [H1|H1].
  - apply (failed_iff s Hf). rewrite E. apply Exists_cons_hd. exact H1.
  - destruct H1 as [? ? ? ?|? ? ? ?|? ? ? ? ? [H1|H1] ?|? ? ? ? ?]; cbn [w_state] in H2; congruence.
Qed.

(* If the buffer holds no row, empty items are handed out for ever. *)
Theorem C55_small_buffer_refuted : forall n size k s,
  (0 < n)%nat -> 0 < size -> cruns true size k (c_start n size 0) s -> no_failure s ->
  ~ all_done s /\ exists s', cstep true size s s' /\ no_failure s'.
Proof.
  intros n size k s Hn Hs H Hf. pose proof (zero_reach _ _ _ _ _ Hs H) as [Hz|Hz]; [destruct (failed_iff s Hf Hz)|].
  assert (Hd : ~ all_done s) by (intros [Hd _]; rewrite Hd in Hz; exact Hz). split; [exact Hd|].
  destruct (cm_progress size n s Hn (cm_reach _ _ _ _ _ _ H)) as [H1|(s' & H1 & H2)].
  - intros HH. rewrite HH in Hz. exact Hz.
  - contradiction.
  - exists s'. auto.
Qed.

Print Assumptions C55_rows.
Print Assumptions C55_finishes_partial.
Print Assumptions C55_failure_unreported.
Print Assumptions C55_one_process_refuted.
Print Assumptions C55_unbuffered_refuted.
Print Assumptions C55_small_buffer_refuted.
