(* Invariants of the processes of bigfile-copy-mpi. *)
From Coq Require Import List ZArith Lia Bool ZifyBool ZifyNat.
From Verif Require Import CopyMpi.
Import ListNotations.
Open Scope Z_scope.

Lemma cm_nth : forall (l1 : list worker) w' l2 i x w, nth_error (l1 ++ w' :: l2) i = Some x ->
  (i = length l1 /\ x = w') \/ (i <> length l1 /\ nth_error (l1 ++ w :: l2) i = Some x).
Proof.
  intros l1 w' l2 i x w H.
  destruct (lt_eq_lt_dec i (length l1)) as [[H1|H1]|H1].
  - right; split; [lia|]. rewrite nth_error_app1 in * by lia. exact H.
  - left; split; [exact H1|]. subst i. rewrite nth_error_app2 in H by lia.
    rewrite PeanoNat.Nat.sub_diag in H. cbn in H. injection H as <-. reflexivity.
  - right; split; [lia|]. rewrite nth_error_app2 in * by lia.
    destruct (i - length l1)%nat eqn:E; [lia|]. exact H.
Qed.
Lemma cm_mid : forall (l1 : list worker) w l2, nth_error (l1 ++ w :: l2) (length l1) = Some w.
Proof. intros l1 w l2. rewrite nth_error_app2 by lia. rewrite PeanoNat.Nat.sub_diag. reflexivity. Qed.

(* -------- messages in flight -------- *)
Definition cm_run (s : sstate) : bool := match s with S_Recv _ _ | S_Sent _ _ _ => true | _ => false end.
Definition cm_died (s : sstate) (i : nat) : bool :=
  match s with S_Die k => Nat.ltb i k | S_DieSent k => Nat.leb i k | S_End => true | _ => false end.
Definition cm_tail (d : bool) : list order := if d then [DIE] else [].

Inductive wok (run died : bool) : worker -> Prop :=
| ok_send a log : wok run died (mkW (W_Send a) [] (cm_tail died) log)
| ok_posted st a log : st = W_Wait \/ st = W_Recv -> wok run died (mkW st [a] (cm_tail died) log)
| ok_given st o c log : st = W_Wait \/ st = W_Recv -> wok run died (mkW st [] (WORK o c :: cm_tail died) log)
| ok_work o c log : wok run died (mkW (W_Work o c) [] (cm_tail died) log)
| ok_lost st log : run = false -> st = W_Wait \/ st = W_Recv -> wok run died (mkW st [] (cm_tail died) log)
| ok_end up log : died = true -> wok run died (mkW W_End up [] log).

Definition cm_inv (n : nat) (s : cstate) : Prop :=
  length (c_ws s) = n
  /\ (forall i w, nth_error (c_ws s) i = Some w -> wok (cm_run (c_srv s)) (cm_died (c_srv s) i) w)
  /\ match c_srv s with S_Die k => (k <= n)%nat | S_DieSent k | S_Sent _ _ k => (k < n)%nat | _ => True end.

Lemma wok_stop : forall r d w, wok r d w -> wok false d w.
Proof. intros r d w H. destruct H; [apply ok_send | apply ok_posted | apply ok_given | apply ok_work | apply ok_lost | apply ok_end]; auto. Qed.


Lemma cm_upd : forall (P Q : nat -> worker -> Prop) l1 w w' l2,
  (forall i x, nth_error (l1 ++ w :: l2) i = Some x -> P i x) ->
  (P (length l1) w -> Q (length l1) w') ->
  (forall i x, i <> length l1 -> P i x -> Q i x) ->
  forall i x, nth_error (l1 ++ w' :: l2) i = Some x -> Q i x.
Proof.
  intros P Q l1 w w' l2 H1 H2 H3 i x Hx.
  destruct (cm_nth _ _ _ _ _ w Hx) as [[-> ->]|[Hi Hx']].
  - apply H2, H1, cm_mid.
  - apply H3; [exact Hi|]. apply H1. exact Hx'.
Qed.


Ltac inv H := inversion H; subst; clear H.
Lemma cm_tail_cons : forall d x l, cm_tail d = x :: l -> d = true /\ x = DIE /\ l = [].
Proof. intros [|] x l H; [|discriminate]. injection H as <- <-. auto. Qed.
Lemma cm_tail_cons' : forall d x l, x :: l = cm_tail d -> d = true /\ x = DIE /\ l = [].
Proof. intros d x l H. apply cm_tail_cons. auto. Qed.
Ltac tails := repeat match goal with
  | H : cm_tail _ = _ :: _ |- _ => apply cm_tail_cons in H; destruct H as (H & ? & ?)
  | H : _ :: _ = cm_tail _ |- _ => apply cm_tail_cons' in H; destruct H as (H & ? & ?)
  | H : _ \/ _ |- _ => destruct H; discriminate
  end; try discriminate; subst.

Lemma cm_step : forall eager size n s s', cm_inv n s -> cstep eager size s s' -> cm_inv n s'.
Proof.
  intros eager size n s s' (Hn & Hw & Hk) H. destruct H as
    [s l1 a up down log l2 | s l1 up down log l2 He | s l1 up o c down log l2 | s l1 up down log l2
    |s l1 o c up down log l2 | s l1 o c up down log l2 | o c l1 st up down log l2 Ho | o c l1 st up down log l2 Ho
    |o c l1 st up down log l2 | o c l1 st up down log l2 He | l1 st up down log l2 | l1 st up down log l2 He | l];
  cbn [c_srv c_ws] in *; unfold cm_inv; cbn [c_srv c_ws];
  (split; [try rewrite app_length in *; cbn [length] in *; lia|]);
  try rewrite app_length in Hn; cbn [length] in Hn.
  - split; [|exact Hk]. eapply cm_upd; [exact Hw| |auto]. intros Hm. inv Hm; tails.
    apply (ok_posted _ _ W_Wait a); auto.
  - split; [|exact Hk]. eapply cm_upd; [exact Hw| |auto]. intros Hm. inv Hm; constructor; auto.
  - split; [|exact Hk]. eapply cm_upd; [exact Hw| |auto]. intros Hm. inv Hm; tails.
    apply ok_work.
  - split; [|exact Hk]. eapply cm_upd; [exact Hw| |auto]. intros Hm. inv Hm; tails; apply ok_end; assumption.
  - split; [|exact Hk]. eapply cm_upd; [exact Hw| |auto]. intros Hm. inv Hm; tails. apply ok_send.
  - split; [|exact Hk]. eapply cm_upd; [exact Hw| |auto]. intros Hm. inv Hm; tails. apply ok_send.
  - split; [|lia]. eapply cm_upd; [exact Hw| |auto]. cbn [cm_run cm_died]. intros Hm. inv Hm; try discriminate.
    cbn [cm_tail app]. apply (ok_given true false). assumption.
  - split; [|exact I]. eapply cm_upd; [exact Hw| |intros i x _; apply wok_stop]. cbn [cm_run cm_died]. intros Hm. inv Hm; try discriminate.
    apply (ok_lost false false); auto.
  - split; [|lia]. eapply cm_upd; [exact Hw| |intros i x _; apply wok_stop]. cbn [cm_run cm_died]. intros Hm. inv Hm; try discriminate.
    apply (ok_lost false false); auto.
  - unfold s_head. destruct (o <? size).
    + split; [exact Hw|exact I].
    + split; [|lia]. intros i x Hx. apply (wok_stop _ _ _ (Hw _ _ Hx)).
  - split; [|lia]. eapply cm_upd; [exact Hw| |].
    + cbn [cm_run cm_died]. rewrite PeanoNat.Nat.ltb_irrefl, PeanoNat.Nat.leb_refl. intros Hm. inv Hm; try discriminate; cbn [cm_tail app].
      * apply (ok_send false true).
      * apply (ok_posted false true); auto.
      * apply (ok_given false true); auto.
      * apply (ok_work false true).
      * apply (ok_lost false true); auto.
    + cbn [cm_run cm_died]. intros i x Hi Hx.
      replace (Nat.leb i (length l1)) with (Nat.ltb i (length l1)) by lia. exact Hx.
  - split; [|lia]. intros i x Hx. specialize (Hw i x Hx). cbn [cm_run cm_died] in *.
    replace (Nat.ltb i (S (length l1))) with (Nat.leb i (length l1)) by lia. exact Hw.
  - split; [|exact I]. intros i x Hx. specialize (Hw i x Hx). cbn [cm_run cm_died] in *.
    assert (Hi : (i < length l)%nat) by (apply nth_error_Some; congruence).
    replace (Nat.ltb i (length l)) with true in Hw by lia. exact Hw.
Qed.

Lemma cm_start : forall n size chunk, cm_inv n (c_start n size chunk).
Proof.
  intros n size chunk. unfold cm_inv, c_start. cbn [c_srv c_ws]. split; [apply repeat_length|].
  unfold s_head. destruct (0 <? size); (split; [|lia || exact I]);
  intros i w Hw; apply nth_error_In, repeat_spec in Hw; subst w; cbn [cm_run cm_died];
  [|replace (Nat.ltb i 0) with false by lia].
  - apply (ok_send true false).
  - apply (ok_send false false).
Qed.

Lemma cm_reach : forall eager n size chunk k s, cruns eager size k (c_start n size chunk) s -> cm_inv n s.
Proof.
  intros eager n size chunk k s H. remember (c_start n size chunk) as s0 eqn:E. revert E.
  induction H as [s|k s1 s2 s3 H IH Hs]; intros ->.
  - apply cm_start.
  - apply (cm_step eager size n s2); auto.
Qed.

(* -------- something can always happen -------- *)
Lemma cm_split : forall (l : list worker) i w, nth_error l i = Some w -> exists l1 l2, l = l1 ++ w :: l2 /\ length l1 = i.
Proof. intros l i w H. apply nth_error_split in H. destruct H as (l1 & l2 & H1 & H2). eauto. Qed.

Lemma cm_items : forall s l1 w l2, all_items (mkC s (l1 ++ w :: l2)) = concat (map w_log l1) ++ w_log w ++ concat (map w_log l2).
Proof. intros. unfold all_items. cbn [c_ws]. rewrite map_app, concat_app. reflexivity. Qed.

Definition moves (eager : bool) (size : Z) (s : cstate) : Prop := exists s', cstep eager size s s' /\ (no_failure s -> no_failure s').

Lemma cm_progress : forall size n s, (0 < n)%nat -> cm_inv n s -> c_srv s <> S_Overflow -> all_done s \/ moves true size s.
Proof.
  intros size n [srv ws] Hn (Hl & Hw & Hk) Ho. cbn [c_srv c_ws] in *.
  (* a worker that can go on by itself *)
  destruct (Exists_dec (fun w => match w_state w, w_down w with
    | W_Send _, _ | W_Wait, _ | W_Work _ _, _ | W_Recv, _ :: _ => true | _, _ => false end = true) ws) as [He|He].
  { intros w. apply bool_dec. }
  - right. apply Exists_exists in He. destruct He as (w & Hin & Hw1).
    apply in_split in Hin. destruct Hin as (l1 & l2 & ->). destruct w as [st up down log]. cbn [w_state w_down] in Hw1.
    assert (Hnf : forall s st1 up1 down1 s2 st2 up2 down2, no_failure (mkC s (l1 ++ mkW st1 up1 down1 log :: l2)) -> no_failure (mkC s2 (l1 ++ mkW st2 up2 down2 log :: l2))).
    { intros s st1 up1 down1 s2 st2 up2 down2. unfold no_failure. rewrite !cm_items. auto. }
    destruct st as [a| | |o c|].
    + eexists. split; [apply cs_send|apply Hnf].
    + eexists. split; [apply cs_sent; left; reflexivity|apply Hnf].
    + destruct down as [|[o c|] down]; [discriminate| |].
      * eexists. split; [apply cs_work|apply Hnf].
      * eexists. split; [apply cs_die|apply Hnf].
    + eexists. split; [apply cs_done|]. unfold no_failure. rewrite !cm_items. cbn [w_log].
      rewrite !Forall_app. intros (H1 & H2 & H3). repeat split; auto.
    + discriminate.
  - (* all wait for the server or have returned *)
    assert (Hq : forall i w, nth_error ws i = Some w -> w_state w = W_End \/ (w_state w = W_Recv /\ w_down w = [])).
    { intros i w Hi. apply nth_error_In in Hi. destruct w as [st up down log]. cbn [w_state w_down].
      destruct st as [a| | |o c|]; auto; try (exfalso; apply He, Exists_exists; eexists; split; [exact Hi|reflexivity]).
      destruct down; auto. exfalso; apply He, Exists_exists; eexists; split; [exact Hi|reflexivity]. }
    assert (Hnf : forall s1 s2, no_failure (mkC s1 ws) -> no_failure (mkC s2 ws)) by (intros s1 s2; unfold no_failure, all_items; auto).
    destruct srv as [o c|o c i|k|k| |]; [| | | | |congruence].
    + (* the first worker has sent a message *)
      right. destruct (nth_error ws 0) as [w|] eqn:E; [|apply nth_error_None in E; lia].
      pose proof (Hw _ _ E) as H. pose proof (Hq _ _ E) as H1. cbn [cm_run cm_died] in H.
      apply cm_split in E. destruct E as (l1 & l2 & -> & El).
      inv H; cbn [w_state w_down] in H1; destruct H1 as [H1|[H1 H1']]; try discriminate;
        try (exfalso; match goal with H : _ \/ _ |- _ => destruct H; congruence end).
      * subst st. destruct a.
        -- destruct (Z_lt_ge_dec (o + c) (2 ^ 63)) as [Hs|Hs].
           ++ eexists. split; [apply cs_hand; exact Hs|]. unfold no_failure. rewrite !cm_items. auto.
           ++ eexists. split; [apply cs_overflow; lia|]. unfold no_failure. rewrite !cm_items. auto.
        -- eexists. split; [apply cs_break|]. unfold no_failure. rewrite !cm_items. auto.
    + right. destruct (nth_error ws i) as [w|] eqn:E; [|apply nth_error_None in E; lia].
      apply cm_split in E. destruct E as (l1 & l2 & -> & <-). destruct w as [st up down log].
      eexists. split; [apply cs_handed; left; reflexivity|apply Hnf].
    + right. destruct (PeanoNat.Nat.eq_dec k n) as [->|Hkn].
      * subst n. eexists. split; [apply cs_end|apply Hnf].
      * destruct (nth_error ws k) as [w|] eqn:E; [|apply nth_error_None in E; lia].
        apply cm_split in E. destruct E as (l1 & l2 & -> & <-). destruct w as [st up down log].
        eexists. split; [apply cs_kill|]. unfold no_failure. rewrite !cm_items. auto.
    + right. destruct (nth_error ws k) as [w|] eqn:E; [|apply nth_error_None in E; lia].
      apply cm_split in E. destruct E as (l1 & l2 & -> & <-). destruct w as [st up down log].
      eexists. split; [apply cs_killed; left; reflexivity|apply Hnf].
    + left. split; [reflexivity|]. apply Forall_forall. intros w Hin. cbn [c_ws] in Hin.
      apply In_nth_error in Hin. destruct Hin as [i Hi].
      pose proof (Hw _ _ Hi) as H. destruct (Hq _ _ Hi) as [H1|[H1 H2]]; [exact H1|]. exfalso.
      cbn [cm_run cm_died] in H. inv H; cbn [w_state w_down cm_tail] in *; try discriminate.
Qed.

(* -------- the rows -------- *)
Definition works (l : list order) : list (Z * Z) := flat_map (fun x => match x with WORK o c => [(o, c)] | DIE => [] end) l.
Definition w_items (w : worker) : list (Z * Z) :=
  map fst (w_log w) ++ (match w_state w with W_Work o c => [(o, c)] | _ => [] end) ++ works (w_down w).
Definition held (ws : list worker) : list (Z * Z) := concat (map w_items ws).
Definition hits (r : Z) (l : list (Z * Z)) : nat := length (filter (fun x => (fst x <=? r) && (r <? fst x + snd x)) l)%bool.
Definition w_failed (w : worker) : Prop := Exists (fun x => snd x = false) (w_log w).
Definition w_err (w : worker) : Prop := In ERROR (w_up w) \/ w_state w = W_Send ERROR -> w_failed w.

Lemma hits_app : forall r a b, hits r (a ++ b) = (hits r a + hits r b)%nat.
Proof. intros. unfold hits. rewrite filter_app, app_length. reflexivity. Qed.
Lemma hits_one : forall r o c, hits r [(o, c)] = if ((o <=? r) && (r <? o + c))%bool then 1%nat else 0%nat.
Proof. intros. unfold hits. cbn [filter fst snd]. destruct ((o <=? r) && (r <? o + c))%bool; reflexivity. Qed.
Lemma times_hits : forall r l, times r l = hits r (map fst l).
Proof.
  intros r l. unfold times, hits. induction l as [|x l IH]; [reflexivity|]. cbn [filter map].
  destruct ((fst (fst x) <=? r) && (r <? fst (fst x) + snd (fst x)))%bool; cbn [length]; congruence.
Qed.
Lemma held_mid : forall l1 w l2, held (l1 ++ w :: l2) = held l1 ++ w_items w ++ held l2.
Proof. intros. unfold held. rewrite map_app, concat_app. reflexivity. Qed.
Lemma works_app : forall a b, works (a ++ b) = works a ++ works b.
Proof. intros. unfold works. apply flat_map_app. Qed.

Definition good_item (size chunk : Z) (x : Z * Z) : Prop := 0 <= fst x /\ 0 < snd x <= chunk /\ fst x + snd x <= size.
Definition cm_rows (size chunk : Z) (s : cstate) : Prop :=
  Forall w_err (c_ws s) /\ Forall (good_item size chunk) (held (c_ws s)) /\
  exists E, 0 <= E <= size /\ (forall r, hits r (held (c_ws s)) = if ((0 <=? r) && (r <? E))%bool then 1%nat else 0%nat)
  /\ match c_srv s with
     | S_Recv o c => E = o /\ o < size /\ 0 < c <= chunk
     | S_Sent o c _ => E = o /\ 0 < c <= chunk
     | S_Overflow => False
     | _ => E = size \/ Exists w_failed (c_ws s)
     end.

Lemma held_same : forall size chunk l1 w w' l2,
  (forall r, hits r (w_items w') = hits r (w_items w)) ->
  (Forall (good_item size chunk) (w_items w) -> Forall (good_item size chunk) (w_items w')) ->
  (w_err w -> w_err w') -> (w_failed w -> w_failed w') ->
  forall s s', (match s' with S_Overflow => False | S_Recv _ _ | S_Sent _ _ _ => s = s' | _ => match s with S_Recv _ _ | S_Sent _ _ _ | S_Overflow => False | _ => True end end) ->
  cm_rows size chunk (mkC s (l1 ++ w :: l2)) -> cm_rows size chunk (mkC s' (l1 ++ w' :: l2)).
Proof.
  intros size chunk l1 w w' l2 H1 H2 H3 H4 s s' Hs (He & Hg & E & HE & Hh & Hsrv). unfold cm_rows. cbn [c_srv c_ws] in *.
  split; [|split].
  - apply Forall_app in He. destruct He as [He1 He2]. inversion He2; subst. apply Forall_app. split; [assumption|]. constructor; auto.
  - rewrite held_mid, !Forall_app in *. tauto.
  - exists E. split; [exact HE|]. split.
    + intros r. rewrite <- Hh, !held_mid, !hits_app, H1. reflexivity.
    + assert (Hx : Exists w_failed (l1 ++ w :: l2) -> Exists w_failed (l1 ++ w' :: l2)).
      { rewrite !Exists_app. intros [H|H]; [auto|]. right. inversion H; subst; [apply Exists_cons_hd; auto|apply Exists_cons_tl; assumption]. }
      destruct s'; destruct s; try contradiction; try discriminate; try (injection Hs; intros; subst); auto; tauto.
Qed.

Lemma rows_step : forall eager size chunk s s', 0 < size < 2 ^ 62 -> chunk < 2 ^ 62 -> cm_rows size chunk s -> cstep eager size s s' -> cm_rows size chunk s'.
Proof.
  intros eager size chunk s s' Hsz Hck Hr H. destruct H as
    [s l1 a up down log l2 | s l1 up down log l2 He | s l1 up o c down log l2 | s l1 up down log l2
    |s l1 o c up down log l2 | s l1 o c up down log l2 | o c l1 st up down log l2 Ho | o c l1 st up down log l2 Ho
    |o c l1 st up down log l2 | o c l1 st up down log l2 He | l1 st up down log l2 | l1 st up down log l2 He | l].
  1-6: refine (held_same size chunk _ _ _ _ _ _ _ _ s s _ Hr);
    [ | | | | destruct Hr as (_ & _ & E & _ & _ & Hr); cbn [c_srv] in Hr; destruct s; auto ].
  all: unfold w_items, w_err, w_failed; cbn [w_state w_up w_down w_log works flat_map].
  all: auto.
  all: try (intros [? Hz]; discriminate Hz).
  - intros Hq [Hin|Hin]; [|discriminate]. apply in_app_or in Hin. destruct Hin as [Hin|[->|[]]]; auto.
  - intros Hq [Hin|Hin]; [auto|discriminate].
  - intros Hq [Hin|Hin]; [auto|discriminate].
  - intros Hq [Hin|Hin]; [auto|discriminate].
  - intros r. rewrite map_app, <- app_assoc. reflexivity.
  - rewrite map_app, <- app_assoc. auto.
  - intros Hq [Hin|Hin]; [|discriminate]. apply Exists_app. auto.
  - intros Hq. apply Exists_app. auto.
  - intros r. rewrite map_app, <- app_assoc. reflexivity.
  - rewrite map_app, <- app_assoc. auto.
  - intros Hq _. apply Exists_app. right. apply Exists_cons_hd. reflexivity.
  - intros Hq. apply Exists_app. auto.
  - (* a chunk is handed out *)
    destruct Hr as (Herr & Hg & E & HE & Hh & HEo & Hos & Hc). unfold cm_rows. cbn [c_srv c_ws] in *. subst E.
    assert (Hcut : 0 < s_cut size o c <= chunk /\ o + s_cut size o c <= size).
    { unfold s_cut. destruct (size <? o + c) eqn:E; lia. }
    split; [|split].
    + apply Forall_app in Herr. destruct Herr as [He1 He2]. inversion He2; subst. apply Forall_app. split; [assumption|]. constructor; [|assumption].
      unfold w_err, w_failed in *. cbn [w_up w_state w_log] in *. intros [Hin|Hin]; [|auto]. match goal with Hx : _ \/ _ -> _ |- _ => apply Hx; left; right; exact Hin end.
    + rewrite held_mid, !Forall_app in *. unfold w_items in *. cbn [w_log w_state w_down] in *. rewrite works_app, !Forall_app in *.
      repeat split; try tauto. cbn. constructor; [|constructor]. unfold good_item. cbn. lia.
    + exists (o + s_cut size o c). split; [lia|]. split; [|lia].
      intros r. specialize (Hh r). rewrite held_mid, !hits_app in *. unfold w_items in *. cbn [w_log w_state w_down] in *.
      rewrite works_app, !hits_app in *. change (works [WORK o (s_cut size o c)]) with [(o, s_cut size o c)]. rewrite hits_one.
      destruct (0 <=? r) eqn:E1, (r <? o) eqn:E2, (o <=? r) eqn:E3, (r <? o + s_cut size o c) eqn:E4; cbn [andb] in *; lia.
  - (* overflow *)
    destruct Hr as (_ & _ & E & HE & _ & HEo & Hos & Hc). exfalso. lia.
  - (* error *)
    destruct Hr as (Herr & Hg & E & HE & Hh & HEo & Hos & Hc). unfold cm_rows. cbn [c_srv c_ws] in *. subst E.
    apply Forall_app in Herr. destruct Herr as [He1 He2]. inversion He2 as [|w0 l0 Hx Hy]; subst.
    split; [|split].
    + apply Forall_app. split; [assumption|]. constructor; [|assumption].
      unfold w_err, w_failed in *. cbn [w_up w_state w_log] in *. intros [Hin|Hin]; [|auto]. apply Hx. left. right. exact Hin.
    + rewrite held_mid, !Forall_app in *. exact Hg.
    + exists o. split; [lia|]. split; [|right].
      * intros r. rewrite <- Hh, !held_mid. reflexivity.
      * apply Exists_app. right. apply Exists_cons_hd. unfold w_err, w_failed in *. cbn [w_up w_log] in *. apply Hx. left. left. reflexivity.
  - (* the loop condition *)
    destruct Hr as (Herr & Hg & E & HE & Hh & HEo & Hc). split; [exact Herr|]. split; [exact Hg|]. cbn [c_srv c_ws] in *. subst E.
    exists o. split; [exact HE|]. split; [exact Hh|]. unfold s_head. destruct (o <? size) eqn:E; [lia|]. left. lia.
  - refine (held_same size chunk _ _ _ _ _ _ _ _ _ _ _ Hr); [ | | | | exact I].
    all: unfold w_items, w_err, w_failed; cbn [w_state w_up w_down w_log].
    all: auto.
    + intros r. rewrite works_app, app_nil_r. reflexivity.
    + rewrite works_app, app_nil_r. auto.
Qed.

Lemma rows_start : forall n size chunk, 0 < size -> 0 < chunk -> cm_rows size chunk (c_start n size chunk).
Proof.
  intros n size chunk Hs Hc. unfold cm_rows, c_start. cbn [c_srv c_ws].
  assert (Hh : held (repeat (mkW (W_Send DONE) [] [] []) n) = []).
  { induction n as [|n IH]; [reflexivity|]. cbn. exact IH. }
  rewrite Hh. split; [|split; [constructor|]].
  - apply Forall_forall. intros w Hw. apply repeat_spec in Hw. subst w. intros [[]|H]; discriminate H.
  - exists 0. split; [lia|]. split.
    + intros r. cbn. destruct (0 <=? r) eqn:E1, (r <? 0) eqn:E2; try reflexivity. lia.
    + unfold s_head. replace (0 <? size) with true by lia. lia.
Qed.
Lemma rows_reach : forall eager n size chunk k s, 0 < size < 2 ^ 62 -> 0 < chunk < 2 ^ 62 ->
  cruns eager size k (c_start n size chunk) s -> cm_rows size chunk s.
Proof.
  intros eager n size chunk k s Hs Hc H. remember (c_start n size chunk) as s0 eqn:E. revert E.
  induction H as [s|k s1 s2 s3 H IH Hst]; intros ->.
  - apply rows_start; lia.
  - apply (rows_step eager size chunk s2); auto; lia.
Qed.

Lemma hits_items : forall r ws, (times r (concat (map w_log ws)) <= hits r (held ws))%nat.
Proof.
  intros r ws. rewrite times_hits. unfold held. induction ws as [|w ws IH]; [auto|]. cbn [map concat].
  rewrite map_app, !hits_app. unfold w_items at 1. rewrite !hits_app. lia.
Qed.
Lemma held_items : forall x ws, In x (concat (map w_log ws)) -> In (fst x) (held ws).
Proof.
  intros x ws H. apply in_concat in H. destruct H as (l & Hl & Hx). apply in_map_iff in Hl. destruct Hl as (w & <- & Hw).
  apply in_concat. exists (w_items w). split; [apply in_map; exact Hw|]. apply in_or_app. left. apply in_map. exact Hx.
Qed.
Lemma hits_done : forall r n s, cm_inv n s -> all_done s -> hits r (held (c_ws s)) = times r (all_items s).
Proof.
  intros r n s (_ & Hw & _) (_ & Hd). rewrite times_hits. unfold all_items, held.
  assert (Hx : Forall (fun w => w_items w = map fst (w_log w)) (c_ws s)).
  { apply Forall_forall. intros w Hin. rewrite Forall_forall in Hd. specialize (Hd w Hin).
    apply In_nth_error in Hin. destruct Hin as [i Hi]. specialize (Hw i w Hi).
    destruct Hw; cbn [w_state] in Hd; try discriminate; try (destruct H; congruence); try (destruct H0; congruence).
    unfold w_items. cbn. apply app_nil_r. }
  clear Hd Hw. induction Hx as [|w ws H Hx IH]; [reflexivity|]. cbn [map concat]. rewrite map_app, !hits_app, H, IH. reflexivity.
Qed.

(* -------- it comes to an end -------- *)
Definition wt (w : worker) : Z :=
  (match w_state w with W_Send _ => 3 | W_Wait => 1 | W_Work _ _ => 4 | W_Recv | W_End => 0 end)
  + Z.of_nat (length (w_up w)) + fold_right (fun x a => (match x with WORK _ _ => 5 | DIE => 1 end) + a) 0 (w_down w).
Definition wsum (ws : list worker) : Z := fold_right (fun w a => wt w + a) 0 ws.
Definition swt (n : nat) (size : Z) (s : sstate) : Z :=
  match s with
  | S_Recv o _ => 10 * (size - o) + 4 * Z.of_nat n + 3
  | S_Sent o _ _ => 10 * (size - o) + 4 * Z.of_nat n + 4
  | S_Die k => 4 * (Z.of_nat n - Z.of_nat k) + 1
  | S_DieSent k => 4 * (Z.of_nat n - Z.of_nat k) - 1
  | _ => 0
  end.
Definition mu (n : nat) (size : Z) (s : cstate) : Z := swt n size (c_srv s) + wsum (c_ws s).

Lemma wsum_mid : forall l1 w l2, wsum (l1 ++ w :: l2) = wsum l1 + wt w + wsum l2.
Proof.
  induction l1 as [|x l1 IH]; intros w l2.
  - change (wsum ([] ++ w :: l2)) with (wt w + wsum l2). change (wsum []) with 0. lia.
  - change (wsum ((x :: l1) ++ w :: l2)) with (wt x + wsum (l1 ++ w :: l2)). change (wsum (x :: l1)) with (wt x + wsum l1). rewrite IH. lia.
Qed.
Lemma wfold_app : forall a b, fold_right (fun x a => (match x with WORK _ _ => 5 | DIE => 1 end) + a) 0 (a ++ b)
  = fold_right (fun x a => (match x with WORK _ _ => 5 | DIE => 1 end) + a) 0 a + fold_right (fun x a => (match x with WORK _ _ => 5 | DIE => 1 end) + a) 0 b.
Proof. induction a as [|x a IH]; intros b; cbn [app fold_right]; [lia|]. rewrite IH. lia. Qed.
Lemma wt_nonneg : forall w, 0 <= wt w.
Proof.
  intros [st up down log]. unfold wt. cbn [w_state w_up w_down].
  assert (0 <= fold_right (fun x a => (match x with WORK _ _ => 5 | DIE => 1 end) + a) 0 down).
  { induction down as [|x down IH]; cbn [fold_right]; [lia|]. destruct x; lia. }
  destruct st; lia.
Qed.
Lemma wsum_nonneg : forall ws, 0 <= wsum ws.
Proof. induction ws as [|w ws IH]; [cbn; lia|]. pose proof (wt_nonneg w). change (wsum (w :: ws)) with (wt w + wsum ws). lia. Qed.
Lemma mu_nonneg : forall n size chunk s, cm_inv n s -> cm_rows size chunk s -> 0 <= mu n size s.
Proof.
  intros n size chunk [srv ws] (_ & _ & Hk) (_ & _ & E & HE & _ & Hs). unfold mu. cbn [c_srv c_ws] in *. pose proof (wsum_nonneg ws).
  destruct srv; cbn [swt]; lia.
Qed.
Lemma mu_step : forall eager n size chunk s s', 0 < size < 2 ^ 62 -> chunk < 2 ^ 62 -> cm_inv n s -> cm_rows size chunk s ->
  cstep eager size s s' -> mu n size s' < mu n size s.
Proof.
  intros eager n size chunk s s' Hsz Hck (Hn & _ & Hk) (_ & _ & E & HE & _ & Hs) H. unfold mu. destruct H; cbn [c_srv c_ws] in *;
    try rewrite !wsum_mid; unfold wt; cbn [w_state w_up w_down]; try rewrite !app_length; try rewrite !wfold_app; cbn [length fold_right swt]; try lia.
  - assert (0 < s_cut size o c) by (unfold s_cut; destruct (size <? o + c) eqn:E1; lia). lia.
  - unfold s_head. destruct (o <? size) eqn:E1; cbn [swt]; lia.
Qed.
Lemma mu_runs : forall eager n size chunk k s, 0 < size < 2 ^ 62 -> 0 < chunk < 2 ^ 62 ->
  cruns eager size k (c_start n size chunk) s -> mu n size s + Z.of_nat k <= mu n size (c_start n size chunk).
Proof.
  intros eager n size chunk k s Hs Hc H. remember (c_start n size chunk) as s0 eqn:E. revert E.
  induction H as [s|k s1 s2 s3 H IH Hst]; intros E.
  - lia.
  - specialize (IH E). rewrite E in H.
    pose proof (mu_step eager n size chunk s2 s3 Hs ltac:(lia) (cm_reach _ _ _ _ _ _ H) (rows_reach _ _ _ _ _ _ Hs Hc H) Hst). lia.
Qed.
Lemma mu_start : forall n size chunk, 0 < size -> mu n size (c_start n size chunk) = 10 * size + 7 * Z.of_nat n + 3.
Proof.
  intros n size chunk H. unfold mu, c_start, s_head. replace (0 <? size) with true by lia. cbn [c_srv c_ws swt].
  assert (wsum (repeat (mkW (W_Send DONE) [] [] []) n) = 3 * Z.of_nat n).
  { clear. induction n as [|n IH]; [reflexivity|]. cbn [repeat]. change (wsum (mkW (W_Send DONE) [] [] [] :: repeat (mkW (W_Send DONE) [] [] []) n)) with (3 + wsum (repeat (mkW (W_Send DONE) [] [] []) n)). rewrite IH. lia. }
  lia.
Qed.

(* -------- failures -------- *)
Lemma w_err_step : forall eager size s s', Forall w_err (c_ws s) -> cstep eager size s s' -> Forall w_err (c_ws s').
Proof.
  intros eager size s s' H Hst. destruct Hst; cbn [c_ws] in *; auto.
  all: apply Forall_app in H; destruct H as [H1 H2]; apply Forall_app; (split; [assumption|]); inversion H2 as [|w0 l0 Hx Hy]; subst; constructor; [|assumption].
  all: unfold w_err, w_failed in *; cbn [w_up w_state w_log] in *.
  - intros [Hin|Hin]; [|discriminate]. apply in_app_or in Hin. destruct Hin as [Hin|[->|[]]]; auto.
  - intros [Hin|Hin]; [auto|discriminate].
  - intros [Hin|Hin]; [auto|discriminate].
  - intros [Hin|Hin]; [auto|discriminate].
  - intros [Hin|Hin]; [|discriminate]. apply Exists_app. auto.
  - intros _. apply Exists_app. right. apply Exists_cons_hd. reflexivity.
  - intros [Hin|Hin]; [|auto]. apply Hx. left. right. exact Hin.
  - intros [Hin|Hin]; [|auto]. apply Hx. left. right. exact Hin.
  - intros [Hin|Hin]; [|auto]. apply Hx. left. right. exact Hin.
  - auto.
Qed.
Lemma w_err_reach : forall eager n size chunk k s, cruns eager size k (c_start n size chunk) s -> Forall w_err (c_ws s).
Proof.
  intros eager n size chunk k s H. remember (c_start n size chunk) as s0 eqn:E. revert E.
  induction H as [s|k s1 s2 s3 H IH Hst]; intros ->.
  - apply Forall_forall. intros w Hw. apply repeat_spec in Hw. subst w. intros [[]|H]; discriminate H.
  - apply (w_err_step eager size s2); auto.
Qed.
Lemma failed_step : forall eager size s s', cstep eager size s s' -> Exists w_failed (c_ws s) -> Exists w_failed (c_ws s').
Proof.
  intros eager size s s' Hst H. destruct Hst; cbn [c_ws] in *; auto.
  all: apply Exists_app in H; apply Exists_app; destruct H as [H|H]; [auto|]; right; inversion H as [? ? Hx|? ? Hx]; subst; [apply Exists_cons_hd|apply Exists_cons_tl; assumption];
    unfold w_failed in *; cbn [w_log] in *; try apply Exists_app; auto.
Qed.
Lemma failed_iff : forall s, no_failure s -> ~ Exists w_failed (c_ws s).
Proof.
  intros s H Hx. unfold no_failure, all_items in H. rewrite Forall_forall in H. apply Exists_exists in Hx. destruct Hx as (w & Hw & Hx).
  unfold w_failed in Hx. apply Exists_exists in Hx. destruct Hx as (x & Hx1 & Hx2). rewrite (H x) in Hx2; [discriminate|].
  apply in_concat. exists (w_log w). split; [apply in_map; exact Hw|exact Hx1].
Qed.

(* -------- if MPI_Send waits for the receiver -------- *)
Inductive wsync : worker -> Prop :=
| sy_send a d log : Forall (eq DIE) d -> wsync (mkW (W_Send a) [] d log)
| sy_posted a d log : Forall (eq DIE) d -> wsync (mkW W_Wait [a] d log)
| sy_given st o c d log : st = W_Wait \/ st = W_Recv -> Forall (eq DIE) d -> wsync (mkW st [] (WORK o c :: d) log)
| sy_work o c d log : Forall (eq DIE) d -> wsync (mkW (W_Work o c) [] d log).
Definition wsy (w : worker) : Prop := w_failed w \/ wsync w.

Lemma wsy_step : forall size n s s', cm_inv n s -> Forall w_err (c_ws s) -> Forall wsy (c_ws s) -> cstep false size s s' -> c_srv s' <> S_Overflow -> Forall wsy (c_ws s').
Proof.
  intros size n s s' (_ & Hw & _) He H Hst Hno.
  destruct Hst as
    [s l1 a up down log l2 | s l1 up down log l2 Hea | s l1 up o c down log l2 | s l1 up down log l2
    |s l1 o c up down log l2 | s l1 o c up down log l2 | o c l1 st up down log l2 Ho | o c l1 st up down log l2 Ho
    |o c l1 st up down log l2 | o c l1 st up down log l2 Hea | l1 st up down log l2 | l1 st up down log l2 Hea | l];
  cbn [c_srv c_ws] in *; auto.
  all: pose proof (Hw _ _ (cm_mid _ _ _)) as Hm; clear Hw.
  all: apply Forall_app in He; destruct He as [_ He]; inversion He as [|w1 l0 He1 _]; subst; clear He.
  all: apply Forall_app in H; destruct H as [H1 H2]; apply Forall_app; (split; [assumption|]); inversion H2 as [|w0 l0 Hx Hy]; subst; constructor; [|assumption].
  all: destruct Hx as [Hx|Hx]; [left; unfold w_failed in *; cbn [w_log] in *; try apply Exists_app; auto|].
  - right. inversion Hx; subst; tails. apply sy_posted. assumption.
  - right. destruct Hea as [Hea|Hea]; [discriminate|]. subst up. inversion Hx; subst; tails. apply sy_given; auto.
  - right. inversion Hx; subst; tails. apply sy_work. assumption.
  - right. inversion Hx; subst; tails.
  - right. inversion Hx; subst; tails. apply sy_send. assumption.
  - left. apply Exists_app. right. apply Exists_cons_hd. reflexivity.
  - right. inversion Hx; subst. inversion Hm; subst; try discriminate. apply sy_given; auto.
  - congruence.
  - left. unfold w_err, w_failed in *. cbn [w_up w_log] in *. apply He1. left. left. reflexivity.
  - right. inversion Hx; subst; [apply sy_send|apply sy_posted|apply (sy_given _ _ _ (_ ++ _)); [assumption|]|apply sy_work];
    apply Forall_app; auto.
Qed.
Lemma wsy_reach : forall n size chunk k s, 0 < size < 2 ^ 62 -> 0 < chunk < 2 ^ 62 ->
  cruns false size k (c_start n size chunk) s -> Forall wsy (c_ws s).
Proof.
  intros n size chunk k s Hs Hc H. remember (c_start n size chunk) as s0 eqn:E. revert E.
  induction H as [s|k s1 s2 s3 H IH Hst]; intros E.
  - subst s. apply Forall_forall. intros w Hw. apply repeat_spec in Hw. subst w. right. apply sy_send. constructor.
  - subst s1. apply (wsy_step size n s2); auto.
    + apply (cm_reach _ _ _ _ _ _ H).
    + apply (w_err_reach _ _ _ _ _ _ H).
    + pose proof (rows_reach _ _ _ _ _ _ Hs Hc (cr_step _ _ _ _ _ _ H Hst)) as (_ & _ & E & _ & _ & HE).
      intros HH. rewrite HH in HE. exact HE.
Qed.

(* -------- if no row fits the buffer -------- *)
Definition c_zero (s : cstate) : Prop := Exists w_failed (c_ws s) \/ (match c_srv s with S_Recv o c | S_Sent o c _ => o = 0 /\ c = 0 | _ => False end).
Lemma zero_reach : forall eager n size k s, 0 < size ->
  cruns eager size k (c_start n size 0) s -> c_zero s.
Proof.
  intros eager n size k s Hs H. remember (c_start n size 0) as s0 eqn:E. revert E.
  induction H as [s|k s1 s2 s3 H IH Hst]; intros E.
  - subst s. right. unfold c_start, s_head. cbn [c_srv]. replace (0 <? size) with true by lia. auto.
  - subst s1. specialize (IH eq_refl). pose proof (w_err_reach _ _ _ _ _ _ H) as He. destruct IH as [IH|IH].
    + left. apply (failed_step eager size s2); assumption.
    + destruct Hst as
        [s l1 a up down log l2 | s l1 up down log l2 Hea | s l1 up o c down log l2 | s l1 up down log l2
        |s l1 o c up down log l2 | s l1 o c up down log l2 | o c l1 st up down log l2 Ho | o c l1 st up down log l2 Ho
        |o c l1 st up down log l2 | o c l1 st up down log l2 Hea | l1 st up down log l2 | l1 st up down log l2 Hea | l];
      cbn [c_srv c_ws] in *; try contradiction; try (right; exact IH).
      * right. destruct IH as [-> ->]. unfold s_cut. cbn [c_srv]. replace (size <? 0 + 0) with false by lia. auto.
      * exfalso. lia.
      * left. cbn [c_ws]. apply Forall_app in He. destruct He as [_ He]. inversion He as [|w1 l0 He1 _]; subst.
        apply Exists_app. right. apply Exists_cons_hd. unfold w_err, w_failed in *. cbn [w_up w_log] in *. apply He1. left. left. reflexivity.
      * right. destruct IH as [-> ->]. unfold s_head. cbn [c_srv]. replace (0 <? size) with true by lia. auto.
Qed.
