(* Dividing the ranks into segments. *)
From Coq.Strings Require Import Byte String.
From Coq Require Import List ZArith Lia Bool ZifyBool ZifyNat.
From Verif Require Import Base BaseFacts Par Mpi Spec.
Import ListNotations.
Open Scope Z_scope.
Ltac Zify.zify_post_hook ::= Z.div_mod_to_equations.

Lemma zsum_cons x l : zsum (x :: l) = x + zsum l. Proof. reflexivity. Qed.
(* Sum over the ranks of a list. *)
Definition sum_over (v : nat -> Z) (l : list nat) : Z := zsum (map v l).
Lemma sum_over_app v a b : sum_over v (a ++ b) = sum_over v a + sum_over v b.
Proof. unfold sum_over. rewrite map_app, zsum_app. reflexivity. Qed.
Lemma sum_over_cons v a b : sum_over v (a :: b) = v a + sum_over v b.
Proof. reflexivity. Qed.
Lemma sum_over_nonneg v l : (forall i, In i l -> 0 <= v i) -> 0 <= sum_over v l.
Proof. induction l as [|i l IH]; intros H; [reflexivity|]. rewrite sum_over_cons. pose proof (H i (or_introl eq_refl)). specialize (IH (fun j Hj => H j (or_intror Hj))). lia. Qed.
Lemma sum_over_pos v l : 0 < sum_over v l -> exists i, In i l /\ 0 < v i.
Proof.
  induction l as [|i l IH]; intros H; [unfold sum_over in H; cbn in H; lia|]. rewrite sum_over_cons in H. destruct (Z_lt_dec 0 (v i)) as [L|L]; [exists i; split; [left; auto|auto]|].
  destruct IH as (j & Hj & Hv); [lia|]. exists j. split; [right; auto|auto].
Qed.

Section Colors.
Variable limit : Z.
Hypothesis Hlim : 0 <= limit.

(* Sum, at rank i of the list, over the ranks so far of the same colour. *)
Definition acc (c0 : Z) (cur : Z) (l : list Z) (s : list Z) (i : nat) : Z :=
  (if nth i l (-1) =? c0 then cur else 0) + sum_over (fun k => nth k s 0) (filter (fun k => nth k l (-1) =? nth i l (-1)) (seq 0 (S i))).

Lemma acc_0 c0 cur l s : nth 0 l (-1) = c0 -> acc c0 cur l s 0 = cur + nth 0 s 0.
Proof. intros H. unfold acc. rewrite H, Z.eqb_refl. cbn [seq filter]. rewrite H, Z.eqb_refl. unfold sum_over. cbn. lia. Qed.
Lemma filter_seq_shift (P : nat -> bool) n : filter P (seq 1 n) = map S (filter (fun k => P (S k)) (seq 0 n)).
Proof.
  rewrite <- seq_shift. induction (seq 0 n) as [|x l IH]; [reflexivity|]. cbn. destruct (P (S x)); cbn; rewrite IH; reflexivity.
Qed.
Lemma acc_S c0 cur c l s x i : acc c0 cur (c :: l) (x :: s) (S i) =
  (if nth i l (-1) =? c0 then cur else 0) + (if c =? nth i l (-1) then x else 0) +
  sum_over (fun k => nth k s 0) (filter (fun k => nth k l (-1) =? nth i l (-1)) (seq 0 (S i))).
Proof.
  unfold acc. change (nth (S i) (c :: l) (-1)) with (nth i l (-1)). change (seq 0 (S (S i))) with (0%nat :: seq 1 (S i)).
  cbn [filter]. rewrite filter_seq_shift. cbn [nth].
  destruct (c =? nth i l (-1)); [rewrite sum_over_cons|]; unfold sum_over; rewrite map_map;
  lia.
Qed.

Lemma color_loop_spec s : forall s2 cur cur2 color last l last', length s2 = length s -> 0 <= color ->
  Forall (fun x => 0 <= x) s -> Forall (fun x => 0 <= x) s2 -> 0 <= cur -> 0 <= cur2 -> cur + zsum s < 2 ^ 64 -> cur2 + zsum s2 < 2 ^ 64 ->
  color_loop limit s s2 cur cur2 color last = (l, last') ->
  length l = length s /\ (s <> [] -> nth 0 l (-1) = color) /\ last' = List.last l last /\
  (forall i, (i < length l)%nat -> color <= nth i l (-1)) /\
  (forall i, (S i < length l)%nat -> nth (S i) l (-1) =
     nth i l (-1) + (if (limit <? acc color cur l s i) || (limit <? acc color cur2 l s2 i) then 1 else 0)).
Proof.
  induction s as [|x s IH]; intros s2 cur cur2 color last l last' Hl Hc F1 F2 C1 C2 B1 B2 E.
  - cbn in E. injection E as <- <-. split; [reflexivity|]. split; [contradiction|]. split; [reflexivity|]. split; intros i Hi; cbn in Hi; lia.
  - destruct s2 as [|x2 s2]; [discriminate|]. cbn in Hl. inversion_clear F1 as [|? ? X1 F1']. inversion_clear F2 as [|? ? X2 F2'].
    rewrite zsum_cons in B1, B2. pose proof (zsum_nonneg s F1') as N1. pose proof (zsum_nonneg s2 F2') as N2.
    cbn [color_loop] in E. rewrite (u64_id (cur + x)), (u64_id (cur2 + x2)) in E by lia.
    destruct ((limit <? cur + x) || (limit <? cur2 + x2)) eqn:Eo.
    + destruct (color_loop limit s s2 0 0 (color + 1) color) as [l1 last1] eqn:E1. injection E as <- <-.
      destruct (IH s2 0 0 (color + 1) color l1 last1) as (I1 & I2 & I3 & I4 & I5); auto; try lia.
      assert (I4' : forall i, (i < length l1)%nat -> nth i l1 (-1) <> color) by (intros i Hi; specialize (I4 i Hi); lia).
      assert (A : forall c0 y t i, (i < length l1)%nat -> acc color c0 (color :: l1) (y :: t) (S i) = acc (color + 1) 0 l1 t i).
      { intros c0 y t i Hi. rewrite acc_S. specialize (I4' i Hi). destruct (Z.eqb_spec (nth i l1 (-1)) color); [contradiction|]. destruct (Z.eqb_spec color (nth i l1 (-1))); [congruence|].
        unfold acc. destruct (nth i l1 (-1) =? color + 1); lia. }
      split; [cbn; lia|]. split; [reflexivity|]. split; [|split].
      * rewrite I3. destruct l1 as [|c1 l1']; [reflexivity|]. symmetry. change (List.last (color :: c1 :: l1') last) with (List.last (c1 :: l1') last). clear. revert c1. induction l1'; intros; [reflexivity|]. cbn [List.last] in *. apply IHl1'.
      * intros i Hi. destruct i; cbn [nth]; [lia|]. cbn in Hi. specialize (I4 i ltac:(lia)). lia.
      * intros i Hi. cbn [length] in Hi. destruct i as [|i].
        { rewrite !acc_0 by reflexivity. cbn [nth]. rewrite Eo. rewrite I2; [lia|]. intros ->. cbn in I1. lia. }
        { rewrite !A by lia. change (nth (S (S i)) (color :: l1) (-1)) with (nth (S i) l1 (-1)). change (nth (S i) (color :: l1) (-1)) with (nth i l1 (-1)). apply I5. lia. }
    + destruct (color_loop limit s s2 (cur + x) (cur2 + x2) color color) as [l1 last1] eqn:E1. injection E as <- <-.
      destruct (IH s2 (cur + x) (cur2 + x2) color color l1 last1) as (I1 & I2 & I3 & I4 & I5); auto; try lia.
      assert (A : forall c0 y t i, acc color c0 (color :: l1) (y :: t) (S i) = acc color (c0 + y) l1 t i).
      { intros c0 y t i. rewrite acc_S. unfold acc. rewrite (Z.eqb_sym color (nth i l1 (-1))). destruct (nth i l1 (-1) =? color); lia. }
      split; [cbn; lia|]. split; [reflexivity|]. split; [|split].
      * rewrite I3. destruct l1 as [|c1 l1']; [reflexivity|]. symmetry. change (List.last (color :: c1 :: l1') last) with (List.last (c1 :: l1') last). clear. revert c1. induction l1'; intros; [reflexivity|]. cbn [List.last] in *. apply IHl1'.
      * intros i Hi. destruct i; cbn [nth]; [lia|]. cbn in Hi. specialize (I4 i ltac:(lia)). lia.
      * intros i Hi. cbn [length] in Hi. destruct i as [|i].
        { rewrite !acc_0 by reflexivity. cbn [nth]. rewrite Eo. rewrite I2; [lia|]. intros ->. cbn in I1. lia. }
        { rewrite !A. change (nth (S (S i)) (color :: l1) (-1)) with (nth (S i) l1 (-1)). change (nth (S i) (color :: l1) (-1)) with (nth i l1 (-1)). apply I5. lia. }
Qed.

(* ------------------------------------------- the colours of a communicator *)
Variables s s2 : list Z.
Hypothesis Hl : length s2 = length s.
Hypothesis F1 : Forall (fun x => 0 <= x) s.
Hypothesis F2 : Forall (fun x => 0 <= x) s2.
Hypothesis B1 : zsum s < 2 ^ 64.
Hypothesis B2 : zsum s2 < 2 ^ 64.
Definition raw : list Z := fst (color_loop limit s s2 0 0 0 0).
Definition rawc (i : nat) : Z := nth i raw (-1).
Definition has_data (i : nat) : Prop := nth i s 0 <> 0 \/ nth i s2 0 <> 0.
Lemma raw_spec : length raw = length s /\ (s <> [] -> rawc 0 = 0) /\ snd (color_loop limit s s2 0 0 0 0) = List.last raw 0 /\
  (forall i, (i < length s)%nat -> 0 <= rawc i) /\
  (forall i, (S i < length s)%nat -> rawc (S i) = rawc i + (if (limit <? acc 0 0 raw s i) || (limit <? acc 0 0 raw s2 i) then 1 else 0)).
Proof.
  unfold rawc, raw. destruct (color_loop limit s s2 0 0 0 0) as [l last] eqn:E. cbn [fst snd].
  destruct (color_loop_spec s s2 0 0 0 0 l last) as (I1 & I2 & I3 & I4 & I5); auto; try lia. rewrite <- I1. auto.
Qed.
Lemma raw_mono i j : (i <= j)%nat -> (j < length s)%nat -> rawc i <= rawc j <= rawc i + Z.of_nat (j - i).
Proof.
  destruct raw_spec as (_ & _ & _ & _ & R). induction 1 as [|j Hij IH]; intros Hj; [lia|]. specialize (IH ltac:(lia)). rewrite R by lia. destruct (_ || _); lia.
Qed.
Lemma acc_eq t i : acc 0 0 raw t i = sum_over (fun k => nth k t 0) (filter (fun k => rawc k =? rawc i) (seq 0 (S i))).
Proof. unfold acc, rawc. destruct (_ =? 0); lia. Qed.
Lemma nth_nonneg t k : Forall (fun x => 0 <= x) t -> 0 <= nth k t 0.
Proof. intros F. destruct (nth_in_or_default k t 0) as [H| ->]; [|lia]. rewrite Forall_forall in F. auto. Qed.

(* A rank of the colour before a step up has data. *)
Lemma step_has_data i : (S i < length s)%nat -> rawc (S i) = rawc i + 1 -> exists k, (k <= i)%nat /\ rawc k = rawc i /\ has_data k.
Proof.
  intros Hi E. destruct raw_spec as (_ & _ & _ & _ & R). rewrite R in E by lia. rewrite !acc_eq in E.
  destruct ((limit <? _) || (limit <? _)) eqn:Eo in E; [|lia]. apply orb_true_iff in Eo.
  assert (X : exists k, In k (filter (fun k => rawc k =? rawc i) (seq 0 (S i))) /\ has_data k).
  { destruct Eo as [L|L]; apply Z.ltb_lt in L; (destruct (sum_over_pos _ _ (Z.le_lt_trans _ _ _ Hlim L)) as (k & Hk & Hv); exists k; split; [exact Hk|]); [left|right]; lia. }
  destruct X as (k & Hk & Hd). apply filter_In in Hk. destruct Hk as [Hk He]. apply in_seq in Hk. exists k. split; [lia|]. split; [lia|exact Hd].
Qed.

Lemma assign_eq i : assign_colors limit s s2 i = (if (nth i s 0 =? 0) && (nth i s2 0 =? 0) then -1 else rawc i, List.last raw 0 + 1).
Proof.
  unfold assign_colors. destruct raw_spec as (_ & _ & R & _ & _). unfold rawc, raw in *. destruct (color_loop limit s s2 0 0 0 0) as [l last]. cbn [fst snd] in *. rewrite R. reflexivity.
Qed.
Lemma last_nth (l : list Z) d : l <> [] -> List.last l d = nth (length l - 1) l (-1).
Proof.
  induction l as [|x l IH]; intros H; [contradiction|]. destruct l as [|y l]; [reflexivity|]. change (List.last (x :: y :: l) d) with (List.last (y :: l) d). rewrite IH by discriminate.
  cbn [length]. replace (S (S (length l)) - 1)%nat with (S (S (length l) - 1)) by lia. reflexivity.
Qed.
Lemma last_raw : s <> [] -> List.last raw 0 = rawc (length s - 1).
Proof. intros H. destruct raw_spec as (L & _). rewrite last_nth; [rewrite L; reflexivity|]. intros E. rewrite E in L. destruct s; [contradiction|discriminate]. Qed.
Lemma rawc_le_last i : (i < length s)%nat -> rawc i <= List.last raw 0.
Proof. intros Hi. rewrite last_raw by (intros E; rewrite E in Hi; cbn in Hi; lia). apply raw_mono; lia. Qed.
End Colors.
