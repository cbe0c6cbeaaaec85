(* Facts about error messages. *)
From Coq.Strings Require Import Byte String.
From Coq Require Import List ZArith Lia Bool ZifyBool ZifyNat Permutation.
From Verif Require Import Base BaseFacts Dtype Fmt Block Errmsg.
Import ListNotations.
Open Scope Z_scope.
Local Open Scope out_scope.
Ltac Zify.zify_post_hook ::= Z.div_mod_to_equations.

(* ---------------- formatting ---------------- *)
Definition no_percent (s : bytes) : Prop := ~ In "%"%byte s.

Lemma vformat_text s r args : no_percent s ->
  vformat (s ++ r) args = (t <- vformat r args ;; Ret (s ++ t)).
Proof.
  induction s as [|c s IH]; intros H; cbn [app].
  - destruct (vformat r args); reflexivity.
  - assert (Hc : c <> "%"%byte) by (intros E; apply H; left; auto).
    assert (Hs : no_percent s) by (intros E; apply H; right; auto).
    specialize (IH Hs).
    transitivity (t <- vformat (s ++ r) args ;; Ret (c :: t)).
    { destruct c; try reflexivity. contradiction. }
    rewrite IH. destruct (vformat r args); reflexivity.
Qed.
Lemma vformat_plain s args : no_percent s -> vformat s args = Ret s.
Proof. intros H. rewrite <- (app_nil_r s) at 1. rewrite vformat_text by auto. cbn. rewrite app_nil_r. reflexivity. Qed.

Lemma digits_lsf_length b d n z : (length (digits_lsf b d n z) <= n)%nat.
Proof. revert z. induction n as [|n IH]; intros z; cbn; [lia|]. destruct (z / b =? 0); cbn; [lia|]. specialize (IH (z / b)). lia. Qed.
Lemma digits_lsf_some b d n z : (1 <= length (digits_lsf b d (S n) z))%nat.
Proof. cbn. lia. Qed.
Lemma print_signed_length z : 1 <= zlen (print_signed z) <= 65.
Proof.
  unfold print_signed, print_unsigned, zlen.
  destruct (z <? 0); cbn [length]; rewrite rev_length.
  - pose proof (digits_lsf_length 10 digit 64 (- z)). lia.
  - pose proof (digits_lsf_length 10 digit 64 z). pose proof (digits_lsf_some 10 digit 63 z). lia.
Qed.
Lemma digit_no_percent z : digit (z mod 10) <> "%"%byte.
Proof.
  assert (H : In (z mod 10) [0;1;2;3;4;5;6;7;8;9]) by (cbn [In]; lia).
  cbn [In] in H. repeat (destruct H as [<-|H]; [vm_compute; discriminate|]). contradiction.
Qed.
Lemma digits_no_percent n z : no_percent (digits_lsf 10 digit n z).
Proof.
  unfold no_percent. revert z. induction n as [|n IH]; intros z; cbn; [tauto|].
  intros [H|H]; [exact (digit_no_percent _ H)|]. destruct (z / 10 =? 0); [destruct H|exact (IH _ H)].
Qed.
Lemma print_signed_no_percent z : no_percent (print_signed z).
Proof.
  unfold print_signed, print_unsigned, no_percent.
  destruct (z <? 0); cbn [In]; rewrite <- in_rev; intros H.
  - destruct H as [H|H]; [discriminate|exact (digits_no_percent _ _ H)].
  - exact (digits_no_percent _ _ H).
Qed.
Lemma no_percent_app a b : no_percent (a ++ b) <-> no_percent a /\ no_percent b.
Proof. unfold no_percent. rewrite in_app_iff. tauto. Qed.

(* ---------------- threads ---------------- *)
Definition own_pc (p : epc) : list mid :=
  match p with
  | Copied _ (Some a) => [a]
  | Taken (Some a) => [a]
  | _ => []
  end.
Definition pend_pc (p : epc) : list (option bytes) :=
  match p with Copied m _ => [m] | _ => [] end.
Definition pend_call (c : ecall) : list (option bytes) :=
  match c with CSet m => [m] | CRead => [] end.
Definition pend (t : thread) : list (option bytes) := pend_pc (th_pc t) ++ flat_map pend_call (th_todo t).
Definition opt {A} (x : option A) : list A := match x with Some a => [a] | None => [] end.
Definition owned (s : estate) : list mid :=
  flat_map (fun t => own_pc (th_pc t)) (e_threads s) ++ opt (e_cur s).
Definition cnt (a : mid) (l : list mid) : nat := count_occ Nat.eq_dec l a.

Definition ok_pc (live : list (mid * bytes)) (p : epc) : Prop :=
  match p with
  | Out | Taken _ => True
  | Copied (Some m) (Some a) => find_msg live a = Some (strdup m)
  | Copied None None => True
  | _ => False
  end.
Definition ok_call (c : ecall) : Prop := match c with CSet _ => True | CRead => False end.
Definition shows (s : estate) : Prop :=
  match e_log s with
  | Some m :: _ => exists a, e_cur s = Some a /\ find_msg (e_live s) a = Some (strdup m)
  | _ => e_cur s = None
  end.
Record einv (all : list (option bytes)) (s : estate) : Prop := {
  ei_own : forall a, cnt a (map fst (e_live s)) = cnt a (owned s);
  ei_ids : forall a, (cnt a (map fst (e_live s)) + cnt a (e_freed s) = if Nat.ltb a (e_next s) then 1 else 0)%nat;
  ei_ok : Forall (fun t => ok_pc (e_live s) (th_pc t) /\ Forall ok_call (th_todo t)) (e_threads s);
  ei_shows : shows s;
  ei_all : Permutation (e_log s ++ flat_map pend (e_threads s)) all
}.

Arguments cnt : simpl never.
Lemma cnt_app a l1 l2 : cnt a (l1 ++ l2) = (cnt a l1 + cnt a l2)%nat.
Proof. unfold cnt. apply count_occ_app. Qed.
Lemma cnt_cons a b l : cnt a (b :: l) = ((if Nat.eqb b a then 1 else 0) + cnt a l)%nat.
Proof.
  unfold cnt. cbn. destruct (Nat.eq_dec b a) as [->|N].
  - rewrite Nat.eqb_refl. reflexivity.
  - apply Nat.eqb_neq in N. rewrite N. reflexivity.
Qed.
Lemma cnt_nil a : cnt a [] = 0%nat. Proof. reflexivity. Qed.

Lemma set_nth_app {A} (l1 : list A) t t' l2 : set_nth (length l1) t' (l1 ++ t :: l2) = l1 ++ t' :: l2.
Proof. induction l1; cbn; [reflexivity|]. rewrite IHl1. reflexivity. Qed.

Lemma find_msg_cons b m l a : find_msg ((b, m) :: l) a = if Nat.eqb b a then Some m else find_msg l a.
Proof. unfold find_msg. cbn. destruct (Nat.eqb b a); reflexivity. Qed.
Lemma find_msg_cnt l a : find_msg l a <> None <-> (0 < cnt a (map fst l))%nat.
Proof.
  induction l as [|[b m] l IH]; [unfold cnt; cbn; split; [congruence|lia]|].
  rewrite find_msg_cons. cbn [map fst]. rewrite cnt_cons. destruct (Nat.eqb b a).
  - split; [lia|congruence].
  - rewrite IH. lia.
Qed.
Lemma find_msg_filter l a b : a <> b ->
  find_msg (filter (fun x => negb (Nat.eqb (fst x) b)) l) a = find_msg l a.
Proof.
  intros N. induction l as [|[c m] l IH]; [reflexivity|]. cbn [filter fst].
  destruct (Nat.eqb c b) eqn:E; cbn [negb].
  - rewrite find_msg_cons, IH. assert (F : Nat.eqb c a = false) by lia. rewrite F. reflexivity.
  - rewrite !find_msg_cons, IH. reflexivity.
Qed.
Lemma cnt_filter l a b :
  cnt a (map fst (filter (fun x : mid * bytes => negb (Nat.eqb (fst x) b)) l)) =
  if Nat.eqb a b then 0%nat else cnt a (map fst l).
Proof.
  induction l as [|[c m] l IH]; [cbn; destruct (Nat.eqb a b); reflexivity|]. cbn [filter fst].
  destruct (Nat.eqb c b) eqn:E; cbn [negb map fst]; rewrite !cnt_cons.
  - rewrite IH. destruct (Nat.eqb a b) eqn:F; [reflexivity|]. assert (G : Nat.eqb c a = false) by lia. rewrite G. reflexivity.
  - rewrite IH. destruct (Nat.eqb a b) eqn:F; [|reflexivity]. assert (G : Nat.eqb c a = false) by lia. rewrite G. reflexivity.
Qed.

Lemma ok_pc_mono live live' p :
  (forall a, In a (own_pc p) -> find_msg live' a = find_msg live a) -> ok_pc live p -> ok_pc live' p.
Proof.
  intros H O. destruct p as [|[m|] [a|]| | |]; cbn in *; auto. rewrite H; auto.
Qed.
Lemma cnt_In a l : In a l <-> (0 < cnt a l)%nat.
Proof. unfold cnt. rewrite (count_occ_In Nat.eq_dec). lia. Qed.
Lemma cnt_flat_In a (ts : list thread) t : In t ts -> In a (own_pc (th_pc t)) ->
  (0 < cnt a (flat_map (fun t => own_pc (th_pc t)) ts))%nat.
Proof. intros H1 H2. apply cnt_In. apply in_flat_map. exists t. auto. Qed.

Lemma estep_inv all s i : einv all s -> exists s', estep true s i = Ret s' /\ einv all s'.
Proof.
  intros I. unfold estep. destruct (nth_error (e_threads s) i) as [t|] eqn:E; [|eauto].
  apply nth_error_split in E. destruct E as (l1 & l2 & E & L).
  destruct s as [live next cur freed log seen threads]. cbn in E, L. subst threads i.
  destruct t as [pc todo]. cbn [th_pc th_todo].
  destruct I as [I1 I2 I3 I4 I5].
  cbn [e_live e_next e_cur e_freed e_log e_seen e_threads] in *.
  unfold owned in I1. cbn [e_threads e_cur] in I1.
  assert (I1' : forall a, cnt a (map fst live) =
     (cnt a (flat_map (fun t => own_pc (th_pc t)) l1) + (cnt a (own_pc pc) +
      cnt a (flat_map (fun t => own_pc (th_pc t)) l2)) + cnt a (opt cur))%nat).
  { intros a. rewrite I1. rewrite flat_map_app. cbn [flat_map th_pc]. rewrite !cnt_app. lia. }
  clear I1.
  apply Forall_app in I3. destruct I3 as [F1 F2]. inversion F2 as [|? ? [F0 F3] F4]; subst. clear F2.
  cbn [th_pc th_todo] in F0, F3.
  rewrite flat_map_app in I5. cbn [flat_map] in I5. unfold pend at 2 in I5. cbn [th_pc th_todo] in I5.
  assert (one : forall a, (cnt a (map fst live) <= 1)%nat).
  { intros a. specialize (I2 a). destruct (Nat.ltb a next); lia. }
  destruct pc as [|m p|p old|old|p].
  - destruct todo as [|[[m|]|] r].
    + eexists; split; [reflexivity|]. constructor; cbn; auto.
      * intros a. rewrite I1'. unfold owned. cbn. rewrite flat_map_app. cbn. rewrite !cnt_app, ?cnt_nil. lia.
      * apply Forall_app. split; auto.
      * rewrite flat_map_app. exact I5.
    + (* copy *)
      eexists; split; [reflexivity|]. unfold with_thread. cbn [e_live e_next e_cur e_freed e_log e_seen e_threads].
      rewrite set_nth_app.
      assert (fresh : cnt next (map fst live) = 0%nat).
      { specialize (I2 next). rewrite Nat.ltb_irrefl in I2. lia. }
      assert (keep : forall a, (0 < cnt a (map fst live))%nat -> find_msg ((next, strdup m) :: live) a = find_msg live a).
      { intros a Ha. rewrite find_msg_cons. destruct (Nat.eqb next a) eqn:Ea; [|reflexivity].
        apply Nat.eqb_eq in Ea. subst a. lia. }
      assert (keepF : forall ts, (forall a, (cnt a (flat_map (fun t => own_pc (th_pc t)) ts) <= cnt a (map fst live))%nat) ->
         Forall (fun t => ok_pc live (th_pc t) /\ Forall ok_call (th_todo t)) ts ->
         Forall (fun t => ok_pc ((next, strdup m) :: live) (th_pc t) /\ Forall ok_call (th_todo t)) ts).
      { intros ts Hc HF. rewrite Forall_forall in *. intros t Ht. destruct (HF t Ht) as [O1 O2]. split; auto.
        eapply ok_pc_mono; [|exact O1]. intros a Ha. apply keep. specialize (Hc a).
        pose proof (cnt_flat_In a ts t Ht Ha). lia. }
      constructor; cbn [e_live e_next e_cur e_freed e_log e_seen e_threads].
      * intros a. unfold owned. cbn [e_threads e_cur map fst]. rewrite flat_map_app. cbn [flat_map th_pc own_pc].
        rewrite !cnt_app, !cnt_cons, I1'. cbn [own_pc]. rewrite !cnt_nil. lia.
      * intros a. cbn [map fst]. rewrite cnt_cons. specialize (I2 a). destruct (Nat.eqb next a) eqn:Ea.
        -- apply Nat.eqb_eq in Ea. subst a. rewrite Nat.ltb_irrefl in I2.
           assert (Nat.ltb next (S next) = true) as -> by lia. lia.
        -- assert (Nat.ltb a (S next) = Nat.ltb a next) as -> by lia. lia.
      * apply Forall_app. split; [apply keepF; auto; intros a; rewrite I1'; lia|].
        constructor.
        -- cbn. split; [|inversion F3; auto]. rewrite find_msg_cons, Nat.eqb_refl. reflexivity.
        -- apply keepF; auto. intros a; rewrite I1'; lia.
      * unfold shows in *. cbn [e_live e_cur e_log] in *. destruct log as [|[m0|] log]; auto.
        destruct I4 as (a & C1 & C2). exists a. split; auto. rewrite keep; auto. apply find_msg_cnt. congruence.
      * rewrite flat_map_app. cbn [flat_map]. exact I5.
    + (* copy of NULL *)
      eexists; split; [reflexivity|]. unfold with_thread. cbn [e_live e_next e_cur e_freed e_log e_seen e_threads].
      rewrite set_nth_app. constructor; cbn [e_live e_next e_cur e_freed e_log e_seen e_threads]; auto.
      * intros a. unfold owned. cbn [e_threads e_cur]. rewrite flat_map_app. cbn [flat_map th_pc own_pc].
        rewrite !cnt_app, I1'. cbn [own_pc]. rewrite !cnt_nil. lia.
      * apply Forall_app. split; auto. constructor; auto. cbn. split; auto. inversion F3; auto.
      * rewrite flat_map_app. cbn [flat_map]. exact I5.
    + inversion F3. contradiction.
  - (* exchange *)
    eexists; split; [reflexivity|]. unfold with_thread. cbn [e_live e_next e_cur e_freed e_log e_seen e_threads].
    rewrite set_nth_app. constructor; cbn [e_live e_next e_cur e_freed e_log e_seen e_threads]; auto.
    * intros a. unfold owned. cbn [e_threads e_cur]. rewrite flat_map_app. cbn [flat_map th_pc].
      rewrite !cnt_app, I1'.
      replace (own_pc (Copied m p)) with (opt p) by (destruct p; reflexivity).
      replace (own_pc (Taken cur)) with (opt cur) by (destruct cur; reflexivity). lia.
    * apply Forall_app. split; auto. constructor; auto. cbn. auto.
    * unfold shows. cbn [e_live e_cur e_log]. destruct m as [m|], p as [a|]; cbn in F0; try contradiction; eauto.
    * rewrite flat_map_app. cbn [flat_map]. etransitivity; [|exact I5].
      cbn [pend_pc app]. unfold pend at 2. cbn [th_pc pend_pc th_todo app].
      transitivity (m :: (log ++ flat_map pend l1) ++ flat_map pend_call todo ++ flat_map pend l2).
      { rewrite <- !app_assoc. reflexivity. }
      transitivity ((log ++ flat_map pend l1) ++ m :: flat_map pend_call todo ++ flat_map pend l2).
      { apply Permutation_middle. }
      rewrite <- !app_assoc. reflexivity.
  - contradiction.
  - destruct old as [b|].
    + (* free *)
      assert (Hb : find_msg live b <> None).
      { apply find_msg_cnt. rewrite I1'. cbn [own_pc]. rewrite cnt_cons, Nat.eqb_refl. lia. }
      destruct (find_msg live b) as [mb|] eqn:Eb; [|congruence].
      eexists; split; [reflexivity|]. unfold with_thread. cbn [e_live e_next e_cur e_freed e_log e_seen e_threads].
      rewrite set_nth_app.
      assert (b1 : (cnt b (map fst live) = 1)%nat).
      { assert (0 < cnt b (map fst live))%nat by (apply find_msg_cnt; congruence). specialize (one b). lia. }
      assert (others : forall a, a = b -> (cnt a (flat_map (fun t => own_pc (th_pc t)) l1) = 0 /\
          cnt a (flat_map (fun t => own_pc (th_pc t)) l2) = 0 /\ cnt a (opt cur) = 0)%nat).
      { intros a ->. specialize (I1' b). cbn [own_pc] in I1'. rewrite cnt_cons, Nat.eqb_refl in I1'. lia. }
      assert (keepF : forall ts, cnt b (flat_map (fun t => own_pc (th_pc t)) ts) = 0%nat ->
         Forall (fun t => ok_pc live (th_pc t) /\ Forall ok_call (th_todo t)) ts ->
         Forall (fun t => ok_pc (filter (fun x => negb (Nat.eqb (fst x) b)) live) (th_pc t) /\ Forall ok_call (th_todo t)) ts).
      { intros ts Hc HF. rewrite Forall_forall in *. intros t Ht. destruct (HF t Ht) as [O1 O2]. split; auto.
        eapply ok_pc_mono; [|exact O1]. intros a Ha. apply find_msg_filter. intros ->.
        pose proof (cnt_flat_In b ts t Ht Ha). lia. }
      destruct (others b eq_refl) as (Z1 & Z2 & Z3).
      constructor; cbn [e_live e_next e_cur e_freed e_log e_seen e_threads].
      * intros a. unfold owned. cbn [e_threads e_cur]. rewrite flat_map_app. cbn [flat_map th_pc own_pc].
        rewrite !cnt_app, cnt_filter. destruct (Nat.eqb a b) eqn:Eab.
        -- apply Nat.eqb_eq in Eab. subst a. rewrite !cnt_nil. lia.
        -- rewrite I1'. cbn [own_pc]. rewrite cnt_cons, !cnt_nil.
           assert (Nat.eqb b a = false) as -> by lia. lia.
      * intros a. rewrite cnt_filter, cnt_cons. specialize (I2 a). destruct (Nat.eqb a b) eqn:Eab.
        -- apply Nat.eqb_eq in Eab. subst a. rewrite Nat.eqb_refl. destruct (Nat.ltb b next); lia.
        -- assert (Nat.eqb b a = false) as -> by lia. lia.
      * apply Forall_app. split; [apply keepF; auto|]. constructor; [cbn; auto|apply keepF; auto].
      * unfold shows in *. cbn [e_live e_cur e_log] in *. destruct log as [|[m0|] log]; auto.
        destruct I4 as (a & C1 & C2). exists a. split; auto. rewrite find_msg_filter; auto. intros ->.
        subst cur. cbn [opt] in Z3. rewrite cnt_cons, Nat.eqb_refl in Z3. lia.
      * rewrite flat_map_app. cbn [flat_map]. exact I5.
    + eexists; split; [reflexivity|]. unfold with_thread. cbn [e_live e_next e_cur e_freed e_log e_seen e_threads].
      rewrite set_nth_app. constructor; cbn [e_live e_next e_cur e_freed e_log e_seen e_threads]; auto.
      * intros a. unfold owned. cbn [e_threads e_cur]. rewrite flat_map_app. cbn [flat_map th_pc own_pc].
        rewrite !cnt_app, I1'. cbn [own_pc]. rewrite !cnt_nil. lia.
      * apply Forall_app. split; auto.
      * rewrite flat_map_app. cbn [flat_map]. exact I5.
  - contradiction.
Qed.

Lemma erun_inv all sched : forall s, einv all s -> exists s', erun true s sched = Ret s' /\ einv all s'.
Proof.
  induction sched as [|i r IH]; intros s I; cbn; [eauto|].
  destruct (estep_inv all s i I) as (s1 & -> & I1). cbn. apply IH. exact I1.
Qed.

Lemma estart_inv msgs : einv (concat msgs) (estart (map (map CSet) msgs)).
Proof.
  unfold estart. constructor; cbn.
  - intros a. unfold owned. cbn. rewrite app_nil_r. induction msgs; cbn; auto.
  - intros a. reflexivity.
  - induction msgs as [|l r IH]; cbn; constructor; auto. cbn. split; auto.
    induction l; cbn; constructor; cbn; auto.
  - unfold shows. reflexivity.
  - apply Permutation_refl'. rewrite map_map. induction msgs as [|l r IH]; [reflexivity|].
    cbn [map flat_map concat]. rewrite IH. f_equal. unfold pend. cbn [th_pc pend_pc th_todo app].
    clear. induction l as [|x l IH]; cbn [map flat_map pend_call app]; [reflexivity|]. rewrite IH. reflexivity.
Qed.
