(* Property C48: the sparse all-to-all exchange. *)
From Coq Require Import List ZArith Arith Lia Bool ZifyBool ZifyNat Permutation.
From Verif Require Import Alltoall AlltoallFacts.
Import ListNotations.

(* Every rank visits exactly the ranks it has something to exchange with, each
   once, for every number of ranks up to 2^30. (More overflow an int.) *)
Theorem C48_partners : forall n me cnt, me < n -> (Z.of_nat n <= 2 ^ 30)%Z ->
  exists p, ptask n = Some p /\
  Permutation (flat_map (fun g => match partner n cnt me g with Some t => [t] | None => [] end) (groups p)) (filter (fun t => negb (cnt t =? 0)) (seq 0 n)).
Proof.
  intros n me cnt Hm Hn. destruct (ptask_from_some 31 n 0) as [p Hp]; [exact Hn|lia|]. exists p. split; [exact Hp|].
  apply ptask_from_spec in Hp. destruct Hp as [Hp _]. apply NoDup_Permutation.
  - apply (wants_nodup n cnt me p).
  - apply NoDup_filter, seq_NoDup.
  - intros t. change (In t (wants n cnt me p) <-> In t (filter (fun t => negb (cnt t =? 0)) (seq 0 n))).
    rewrite (wants_in n cnt me p t Hp Hm), filter_In, in_seq. lia.
Qed.
Example C48_partners_example : ptask 6 = Some 3 /\
  flat_map (fun g => match partner 6 (fun _ => 1) 4 g with Some t => [t] | None => [] end) (groups 3) = [4; 5; 0; 1; 2; 3].
Proof. split; reflexivity. Qed.

(* The arguments fit together: what a rank expects is what the other sends,
   the pieces lie in the buffers, and the pieces received do not overlap. *)
Record usable {A} (x : a2a A) (rb : nat -> list A) : Prop := {
  us_match : forall s d, s < a_n x -> d < a_n x -> a_rc x d s = a_sc x s d;
  us_send : forall s d, s < a_n x -> d < a_n x -> a_sd x s d + a_sc x s d <= length (a_sb x s);
  us_recv : forall s d, s < a_n x -> d < a_n x -> a_rd x d s + a_rc x d s <= length (rb d);
  us_disj : forall d s s' j, d < a_n x -> s < a_n x -> s' < a_n x ->
    a_rd x d s <= j < a_rd x d s + a_rc x d s -> a_rd x d s' <= j < a_rd x d s' + a_rc x d s' -> s = s' }.

(* In every run of the sparse exchange, in any order of steps and deliveries
   and whether or not MPI keeps messages: nothing undefined happens, no rank
   waits forever, the number of steps is bounded, and when all have returned
   no message is left and every rank has what MPI_Alltoallv delivers. *)
Theorem C48_sparse : forall A (x : a2a A) rb p eager k s,
  usable x rb -> ptask (a_n x) = Some p -> aruns x p eager k (a_start x p rb) s ->
  ~ astep x p eager s Bad
  /\ k <= a_n x * (3 * 2 ^ p + 6)
  /\ (a_done s \/ exists s', astep x p eager s (Run s'))
  /\ (a_done s -> as_net s = [] /\ forall me, me < a_n x -> exists r, nth_error (as_ranks s) me = Some r /\ received x me (rb me) (ar_buf r)).
Proof.
  intros A x rb p eager k s [U1 U2 U3 U4] Hp H. apply ptask_from_spec in Hp. destruct Hp as [Hp _].
  assert (Hi : ainv x p rb s) by (apply (ainv_reach x p rb Hp U1 U2 U3 U4 eager k); exact H). split; [|split; [|split]].
  - apply (ainv_safe x p rb); assumption.
  - pose proof (amu_runs x p rb Hp U1 U2 U3 U4 _ _ _ _ H) as Hk. rewrite (amu_start x p rb Hp U1 U2 U3 U4) in Hk. lia.
  - apply (ainv_progress x p rb); assumption.
  - intros Hd. destruct (ainv_final x p rb Hp U1 U2 U3 U4 s Hi Hd) as [Hnet Hf]. split; [exact Hnet|]. intros me Hme.
    destruct (nth_error (as_ranks s) me) as [r|] eqn:E.
    + exists r. split; [reflexivity|]. exact (Hf me r E).
    + apply nth_error_None in E. destruct Hi as [Hl _]. lia.
Qed.

(* So every run can be continued until all have returned. *)
Theorem C48_completes : forall A (x : a2a A) rb p eager,
  usable x rb -> ptask (a_n x) = Some p -> exists k s, aruns x p eager k (a_start x p rb) s /\ a_done s.
Proof.
  intros A x rb p eager U Hp.
  assert (H : forall m k s, aruns x p eager k (a_start x p rb) s -> a_n x * (3 * 2 ^ p + 6) - k <= m -> exists k s, aruns x p eager k (a_start x p rb) s /\ a_done s).
  { induction m as [|m IH]; intros k s Hr Hm; destruct (C48_sparse A x rb p eager k s U Hp Hr) as (_ & Hk & [Hd|(s' & Hs)] & _); eauto.
    - destruct (C48_sparse A x rb p eager (S k) s' U Hp (ar_step _ _ _ _ _ _ _ Hr Hs)) as (_ & Hk' & _). lia.
    - apply (IH (S k) s'); [exact (ar_step _ _ _ _ _ _ _ Hr Hs)|lia]. }
  apply (H (a_n x * (3 * 2 ^ p + 6)) 0 (a_start x p rb)); [constructor|lia].
Qed.

(* -------- MPIU_Alltoallv with the displacements left to it -------- *)
(* The piece of the buffer of rank src that is meant for rank me. *)
Definition piece {A} (sb : nat -> list A) (sc : nat -> list nat) (me src : nat) : list A :=
  firstn (nth me (sc src) 0) (skipn (total (firstn me (sc src))) (sb src)).

Lemma sums_length : forall l a, length (sums_from a l) = length l.
Proof. induction l as [|c l IH]; intros a; cbn; [reflexivity|]. rewrite IH. reflexivity. Qed.
Lemma sums_nth : forall l a i, i < length l -> nth i (sums_from a l) 0 = a + total (firstn i l).
Proof.
  induction l as [|c l IH]; intros a i H; [cbn in H; lia|]. destruct i as [|i]; [cbn; lia|].
  cbn [sums_from nth firstn]. rewrite IH by (cbn in H; lia). cbn [total fold_right]. fold (total (firstn i l)). lia.
Qed.
Lemma total_app : forall a b, total (a ++ b) = total a + total b.
Proof. induction a as [|c a IH]; intros b; [reflexivity|]. cbn [app total fold_right]. fold (total (a ++ b)). fold (total a). rewrite IH. lia. Qed.
Lemma total_upto : forall l i, i < length l -> total (firstn i l) + nth i l 0 <= total l.
Proof.
  intros l i H. rewrite <- (firstn_skipn i l) at 3. rewrite total_app. destruct (skipn i l) as [|c r] eqn:E.
  - assert (length (skipn i l) = 0) by (rewrite E; reflexivity). rewrite skipn_length in *. lia.
  - assert (Hc : nth i l 0 = c).
    { rewrite <- (firstn_skipn i l), E. rewrite app_nth2; rewrite firstn_length; [|lia]. replace (i - Nat.min i (length l)) with 0 by lia. reflexivity. }
    rewrite Hc. cbn [total fold_right]. lia.
Qed.
Lemma total_mono : forall l i j, i < j -> j <= length l -> total (firstn i l) + nth i l 0 <= total (firstn j l).
Proof.
  intros l i j H Hj. pose proof (total_upto (firstn j l) i) as Hx. rewrite firstn_length, firstn_firstn in Hx. replace (Nat.min i j) with i in Hx by lia.
  assert (Hn : nth i (firstn j l) 0 = nth i l 0).
  { rewrite <- (firstn_skipn j l) at 2. rewrite app_nth1; [reflexivity|]. rewrite firstn_length. lia. }
  rewrite Hn in Hx. apply Hx. lia.
Qed.

Lemma list_ext : forall {A} (a b : list A), length a = length b -> (forall j, j < length a -> nth_error a j = nth_error b j) -> a = b.
Proof.
  induction a as [|u a IH]; intros [|v b] Hl H; try discriminate; [reflexivity|]. pose proof (H 0 ltac:(cbn; lia)) as H0. injection H0 as ->.
  f_equal. apply IH; [cbn in Hl; lia|]. intros j Hj. apply (H (S j)). cbn. lia.
Qed.
Lemma concat_nth : forall {A} (ls : list (list A)) i k l, nth_error ls i = Some l -> k < length l ->
  nth_error (concat ls) (total (firstn i (map (@length A) ls)) + k) = nth_error l k.
Proof.
  induction ls as [|a ls IH]; intros i k l H Hk; [destruct i; discriminate|]. destruct i as [|i].
  - injection H as <-. cbn. rewrite nth_error_app1 by exact Hk. reflexivity.
  - cbn [nth_error] in H. cbn [concat map firstn total fold_right]. fold (total (firstn i (map (@length A) ls))).
    rewrite nth_error_app2 by lia. rewrite <- (IH i k l H Hk). f_equal. lia.
Qed.
Lemma total_find : forall l j, j < total l -> exists i k, i < length l /\ k < nth i l 0 /\ j = total (firstn i l) + k.
Proof.
  induction l as [|c l IH]; intros j H; [cbn in H; lia|]. cbn [total fold_right] in H. fold (total l) in H. destruct (lt_dec j c) as [Hc|Hc].
  - exists 0, j. cbn. lia.
  - destruct (IH (j - c)) as (i & k & H1 & H2 & H3); [lia|]. exists (S i), k. cbn [length nth firstn total fold_right]. fold (total (firstn i l)). lia.
Qed.

(* Whatever the policy: every rank ends up with the pieces meant for it, of
   rank 0, rank 1, ..., one after the other. *)
Theorem C48_alltoallv : forall A pol n (sb : nat -> list A) sc rb me after,
  (forall i, i < n -> length (sc i) = n /\ total (sc i) <= length (sb i) /\ length (rb i) = total (exchanged n sc i)) -> me < n ->
  a2av_ends pol n sb sc rb me after -> after = concat (map (piece sb sc me) (seq 0 n)).
Proof.
  intros A pol n sb sc rb me after H Hme (x & Hx & He).
  unfold a2av_args in Hx. destruct (forallb _ _); [|discriminate]. injection Hx as <-.
  match type of He with context [received ?y] => set (x := y) in * end.
  assert (Hel : forall d, length (exchanged n sc d) = n) by (intros d; unfold exchanged; rewrite map_length, seq_length; reflexivity).
  assert (Hex : forall s d, s < n -> nth s (exchanged n sc d) 0 = nth d (sc s) 0).
  { intros s d Hs. unfold exchanged. rewrite nth_indep with (d' := (fun src => nth d (sc src) 0) 0) by (rewrite map_length, seq_length; exact Hs).
    rewrite (map_nth (fun src => nth d (sc src) 0)). rewrite seq_nth by exact Hs. reflexivity. }
  assert (HU : usable x rb).
  { constructor; cbn [x a_n a_sb a_sc a_sd a_rc a_rd].
    - intros s d Hs Hd. apply Hex. exact Hs.
    - intros s d Hs Hd. destruct (H s Hs) as (L1 & L2 & _). rewrite sums_nth by lia. pose proof (total_upto (sc s) d). lia.
    - intros s d Hs Hd. destruct (H d Hd) as (_ & _ & L3). rewrite sums_nth by (rewrite Hel; lia). pose proof (total_upto (exchanged n sc d) s). rewrite Hel in *. lia.
    - intros d s s' j Hd Hs Hs'. rewrite !sums_nth by (rewrite Hel; lia). intros H1 H2.
      destruct (lt_eq_lt_dec s s') as [[Hlt|Heq]|Hlt]; [|exact Heq|]; exfalso.
      + pose proof (total_mono (exchanged n sc d) s s' Hlt). rewrite Hel in *. lia.
      + pose proof (total_mono (exchanged n sc d) s' s Hlt). rewrite Hel in *. lia. }
  assert (HR : received x me (rb me) after).
  { destruct (dense pol n sc =? 0); [|exact He]. destruct He as (p & eager & k & s & r & Hp & Hrun & Hd & Hr & <-).
    destruct (C48_sparse A x rb p eager k s HU Hp Hrun) as (_ & _ & _ & Hf). destruct (Hf Hd) as [_ Hf']. destruct (Hf' me Hme) as (r' & Hr' & Hrec).
    rewrite Hr in Hr'. injection Hr' as <-. exact Hrec. }
  clear He. destruct HR as (R1 & R2 & _). destruct (H me Hme) as (_ & _ & L3).
  assert (Hpl : map (@length A) (map (piece sb sc me) (seq 0 n)) = exchanged n sc me).
  { unfold exchanged. rewrite map_map. apply map_ext_in. intros s Hs. apply in_seq in Hs. destruct (H s) as (L1 & L2 & _); [lia|].
    unfold piece. rewrite firstn_length, skipn_length. pose proof (total_upto (sc s) me). lia. }
  assert (Hcl : length (concat (map (piece sb sc me) (seq 0 n))) = total (exchanged n sc me)).
  { rewrite <- Hpl. generalize (map (piece sb sc me) (seq 0 n)). clear. induction l as [|a l IH]; [reflexivity|]. cbn [concat map total fold_right]. fold (total (map (@length A) l)). rewrite app_length, IH. reflexivity. }
  apply list_ext; [lia|]. intros j Hj. rewrite R1, L3 in Hj. destruct (total_find _ _ Hj) as (s & k & Hs & Hk & ->). rewrite Hel in Hs.
  cbn [x a_n a_sb a_sc a_sd a_rc a_rd] in R2. specialize (R2 s k Hs Hk). rewrite sums_nth in R2 by (rewrite Hel; lia). cbn [Nat.add] in R2. rewrite R2.
  rewrite <- Hpl. rewrite (concat_nth _ s k (piece sb sc me s)).
  - destruct (H s Hs) as (L1 & L2 & _). rewrite sums_nth by lia. cbn [Nat.add]. symmetry.
    exact (seg_nth (mkA2A n sb (fun me i => nth i (sc me) 0) (fun me i => total (firstn i (sc me))) (fun _ _ => 0) (fun _ _ => 0)) s me k ltac:(cbn [a_sc]; rewrite Hex in Hk by exact Hs; exact Hk)).
  - rewrite nth_error_map. rewrite (nth_error_nth' _ 0) by (rewrite seq_length; exact Hs). rewrite seq_nth by exact Hs. reflexivity.
  - unfold piece. destruct (H s Hs) as (L1 & L2 & _). rewrite Hex in Hk by exact Hs. rewrite firstn_length, skipn_length. pose proof (total_upto (sc s) me). lia.
Qed.

(* If recvbuf is NULL, MPIU_Alltoallv returns the number of items that will be
   received. *)
Theorem C48_total : forall A n (sb : nat -> list A) sc me t,
  (forall i, i < n -> length (sc i) = n /\ total (sc i) <= length (sb i)) -> me < n ->
  totalrecv (exchanged n sc me) = Some t -> t = length (concat (map (piece sb sc me) (seq 0 n))).
Proof.
  intros A n sb sc me t H Hme Ht. unfold totalrecv in Ht. destruct (_ <? _)%Z; [|discriminate]. injection Ht as <-.
  assert (Hpl : map (@length A) (map (piece sb sc me) (seq 0 n)) = exchanged n sc me).
  { unfold exchanged. rewrite map_map. apply map_ext_in. intros s Hs. apply in_seq in Hs. destruct (H s) as (L1 & L2); [lia|].
    unfold piece. rewrite firstn_length, skipn_length. pose proof (total_upto (sc s) me). lia. }
  rewrite <- Hpl. generalize (map (piece sb sc me) (seq 0 n)). clear. induction l as [|a l IH]; [reflexivity|].
  cbn [concat map total fold_right]. fold (total (map (@length A) l)). rewrite app_length, <- IH. reflexivity.
Qed.

(* Three ranks; rank 1 sends one item to rank 0 and two to rank 2, rank 2
   sends one to rank 1. Under REQUIRED the sparse exchange does it. *)
Definition ex_sc (i : nat) : list nat := match i with 1 => [1; 0; 2] | 2 => [0; 1; 0] | _ => [0; 0; 0] end.
Definition ex_sb (i : nat) : list nat := match i with 1 => [10; 11; 12] | 2 => [20] | _ => [] end.
Definition ex_rb (i : nat) : list nat := match i with 0 => [7] | 1 => [7] | _ => [7; 7] end.
Example C48_example : exists after, a2av_ends REQUIRED 3 ex_sb ex_sc ex_rb 2 after /\ after = [11; 12].
Proof.
  assert (H : forall i, i < 3 -> length (ex_sc i) = 3 /\ total (ex_sc i) <= length (ex_sb i) /\ length (ex_rb i) = total (exchanged 3 ex_sc i)).
  { intros i Hi. destruct i as [|[|[|i]]]; [| | |lia]; repeat split; cbn; lia. }
  assert (Hx : exists x, a2av_args 3 ex_sb ex_sc = Some x) by (eexists; reflexivity).
  destruct Hx as [x Hx].
  assert (HU : usable x ex_rb).
  { injection Hx as <-. constructor; cbn [a_n a_sb a_sc a_sd a_rc a_rd].
    - intros s d Hs Hd. destruct s as [|[|[|s]]]; [| | |lia]; destruct d as [|[|[|d]]]; try lia; reflexivity.
    - intros s d Hs Hd. destruct s as [|[|[|s]]]; [| | |lia]; destruct d as [|[|[|d]]]; try lia; cbn; lia.
    - intros s d Hs Hd. destruct s as [|[|[|s]]]; [| | |lia]; destruct d as [|[|[|d]]]; try lia; cbn; lia.
    - intros d s s' j Hd Hs Hs'. destruct d as [|[|[|d]]]; [| | |lia]; (destruct s as [|[|[|s]]]; [| | |lia]); (destruct s' as [|[|[|s']]]; [| | |lia]); cbn; lia. }
  assert (Hn : a_n x = 3) by (injection Hx as <-; reflexivity).
  destruct (C48_completes nat x ex_rb 2 false HU ltac:(rewrite Hn; reflexivity)) as (k & s & Hr & Hd).
  destruct (C48_sparse nat x ex_rb 2 false k s HU ltac:(rewrite Hn; reflexivity) Hr) as (_ & _ & _ & Hf).
  destruct (proj2 (Hf Hd) 2) as (r & Hr2 & _); [lia|].
  exists (ar_buf r). assert (He : a2av_ends REQUIRED 3 ex_sb ex_sc ex_rb 2 (ar_buf r)).
  { exists x. split; [exact Hx|]. cbn [dense]. exists 2, false, k, s, r. repeat split; auto. }
  split; [exact He|]. apply (C48_alltoallv _ _ _ _ _ _ _ _ H) in He; [|lia]. exact He.
Qed.

Print Assumptions C48_partners.
Print Assumptions C48_sparse.
Print Assumptions C48_completes.
Print Assumptions C48_alltoallv.
Print Assumptions C48_total.
