(* Proofs about the in-memory attribute set. *)
From Coq.Strings Require Import Byte String.
From Coq Require Import List ZArith Lia Bool ZifyBool ZifyNat Sorted Permutation.
From Verif Require Import Base BaseFacts Dtype Cast Array FS Fmt Attr Block Spec AttrSpec DtypeFacts.
Import ListNotations.
Open Scope Z_scope.
Local Open Scope out_scope.
Ltac Zify.zify_post_hook ::= Z.div_mod_to_equations.

(* ------------------------------------------------------------- strcmp *)
Lemma strcmp_refl a : strcmp a a = Eq.
Proof. induction a; simpl; auto. rewrite Z.compare_refl. auto. Qed.

Lemma b2z_inj x y : b2z x = b2z y -> x = y.
Proof. intros H. rewrite <- (z2b_b2z x), <- (z2b_b2z y), H. reflexivity. Qed.

Lemma strcmp_eq a : forall b, strcmp a b = Eq -> a = b.
Proof.
  induction a as [|x a IH]; intros [|y b] H; simpl in H; auto; try discriminate.
  destruct (b2z x ?= b2z y) eqn:E; try discriminate.
  apply Z.compare_eq in E. apply b2z_inj in E. subst. f_equal. auto.
Qed.

Lemma strcmp_antisym a : forall b, strcmp a b = CompOpp (strcmp b a).
Proof.
  induction a as [|x a IH]; intros [|y b]; simpl; auto.
  rewrite (Z.compare_antisym (b2z y) (b2z x)). destruct (b2z y ?= b2z x); simpl; auto.
Qed.

Lemma strcmp_trans a : forall b c, strcmp a b = Lt -> strcmp b c = Lt -> strcmp a c = Lt.
Proof.
  induction a as [|x a IH]; intros [|y b] [|z c] H1 H2; simpl in *; auto; try discriminate.
  destruct (b2z x ?= b2z y) eqn:E1; try discriminate.
  - apply Z.compare_eq in E1. rewrite E1. destruct (b2z y ?= b2z z) eqn:E2; try discriminate; auto. eauto.
  - destruct (b2z y ?= b2z z) eqn:E2; try discriminate.
    + apply Z.compare_eq in E2. rewrite <- E2, E1. auto.
    + rewrite Z.compare_lt_iff in E1, E2. assert (E : (b2z x ?= b2z z) = Lt) by (apply Z.compare_lt_iff; lia). rewrite E. auto.
Qed.

Lemma strcmp_gt a b : strcmp a b = Gt -> strcmp b a = Lt.
Proof. intros H. rewrite strcmp_antisym, H. reflexivity. Qed.
Lemma strcmp_lt a b : strcmp a b = Lt -> strcmp b a = Gt.
Proof. intros H. rewrite strcmp_antisym, H. reflexivity. Qed.

(* -------------------------------------------------------- entry lists *)
Definition entry : Type := (bytes * aval)%type.
Definition elt (x y : entry) : Prop := strcmp (fst x) (fst y) = Lt.

Fixpoint assoc (n : bytes) (m : list entry) : option aval :=
  match m with
  | [] => None
  | (k, v) :: r => if bytes_eqb n k then Some v else assoc n r
  end.

Lemma assoc_app n m1 m2 : assoc n (m1 ++ m2) = match assoc n m1 with Some v => Some v | None => assoc n m2 end.
Proof. induction m1 as [|[k v] m1 IH]; simpl; auto. destruct (bytes_eqb n k); auto. Qed.

Lemma assoc_none n m : ~ In n (map fst m) <-> assoc n m = None.
Proof.
  induction m as [|[k v] m IH]; simpl; [tauto|].
  destruct (bytes_eqb n k) eqn:E.
  - apply bytes_eqb_eq in E. subst. split; [tauto|discriminate].
  - rewrite <- IH. assert (k <> n) by (intros ->; rewrite bytes_eqb_refl in E; discriminate). tauto.
Qed.

Lemma assoc_in n v m : NoDup (map fst m) -> (In (n, v) m <-> assoc n m = Some v).
Proof.
  induction m as [|[k u] m IH]; simpl; intros Hd; [split; [tauto|discriminate]|].
  inversion Hd as [|? ? Hk Hd']; subst. destruct (bytes_eqb n k) eqn:E.
  - apply bytes_eqb_eq in E. subst. split.
    + intros [H|H]; [congruence|]. exfalso. apply Hk. apply (in_map fst) in H. exact H.
    + intros H. inversion H. auto.
  - rewrite <- IH by auto. split; [intros [H|H]; auto|auto].
    inversion H. subst. rewrite bytes_eqb_refl in E. discriminate.
Qed.

Lemma assoc_perm n m1 m2 : NoDup (map fst m1) -> Permutation m1 m2 -> assoc n m1 = assoc n m2.
Proof.
  intros Hd Hp. assert (Hd2 : NoDup (map fst m2)) by (eapply Permutation_NoDup; [apply Permutation_map; eauto|auto]).
  destruct (assoc n m1) as [v|] eqn:E1.
  - symmetry. apply assoc_in; auto. eapply Permutation_in; eauto. apply assoc_in; auto.
  - symmetry. apply assoc_none. intros H. apply assoc_none in E1. apply E1.
    eapply Permutation_in; [apply Permutation_sym, Permutation_map; eauto|auto].
Qed.

Definition esorted (m : list entry) : Prop := StronglySorted elt m.

Lemma esorted_nodup m : esorted m -> NoDup (map fst m).
Proof.
  induction 1 as [|e m Hs IH Hf]; simpl; constructor; auto.
  intros Hi. apply in_map_iff in Hi. destruct Hi as (e' & He & Hi). rewrite Forall_forall in Hf.
  specialize (Hf _ Hi). unfold elt in Hf. rewrite He, strcmp_refl in Hf. discriminate.
Qed.

Lemma esorted_nth m i j x y : esorted m -> (i < j)%nat -> nth_error m i = Some x -> nth_error m j = Some y -> elt x y.
Proof.
  intros Hs. revert i j. induction Hs as [|e m Hs IH Hf]; intros i j Hij Hi Hj; [destruct i; discriminate|].
  destruct j as [|j]; [lia|]. simpl in Hj. destruct i as [|i]; simpl in Hi.
  - inversion Hi. subst. rewrite Forall_forall in Hf. apply Hf. eapply nth_error_In; eauto.
  - apply (IH i j); auto. lia.
Qed.

Lemma esorted_sorted_names m : esorted m -> sorted_names (map fst m).
Proof.
  induction 1 as [|e m Hs IH Hf]; simpl; auto. split; auto.
  destruct m as [|e2 m]; simpl; auto. inversion Hf. auto.
Qed.

(* Pure insertion sort. *)
Fixpoint eins (e : entry) (m : list entry) : list entry :=
  match m with
  | [] => [e]
  | x :: r => match strcmp (fst e) (fst x) with Gt => x :: eins e r | _ => e :: x :: r end
  end.
Fixpoint esort (m : list entry) : list entry :=
  match m with [] => [] | e :: r => eins e (esort r) end.

Lemma eins_perm e m : Permutation (eins e m) (e :: m).
Proof.
  induction m as [|x m IH]; simpl; auto.
  destruct (strcmp (fst e) (fst x)); auto. eapply perm_trans; [apply perm_skip, IH|apply perm_swap].
Qed.
Lemma esort_perm m : Permutation (esort m) m.
Proof. induction m as [|e m IH]; simpl; auto. eapply perm_trans; [apply eins_perm|auto]. Qed.

Lemma eins_sorted e m : ~ In (fst e) (map fst m) -> esorted m -> esorted (eins e m).
Proof.
  intros Hn Hs. revert Hn. induction Hs as [|x m Hs IH Hf]; intros Hn; simpl.
  - constructor; constructor.
  - simpl in Hn. destruct (strcmp (fst e) (fst x)) eqn:E.
    + apply strcmp_eq in E. exfalso. apply Hn. auto.
    + constructor; [constructor; auto|]. constructor; [exact E|].
      eapply Forall_impl; [|exact Hf]. intros y Hy. unfold elt in *. eapply strcmp_trans; eauto.
    + constructor; [apply IH; tauto|].
      apply Forall_forall. intros y Hy. apply (Permutation_in _ (eins_perm e m)) in Hy. destruct Hy as [<-|Hy].
      * unfold elt. apply strcmp_gt. auto.
      * rewrite Forall_forall in Hf. auto.
Qed.

Lemma esort_sorted m : NoDup (map fst m) -> esorted (esort m).
Proof.
  induction m as [|e m IH]; simpl; intros Hd; [constructor|]. inversion Hd; subst.
  apply eins_sorted; auto.
  intros Hi. match goal with H : ~ In _ _ |- _ => apply H end.
  eapply Permutation_in; [apply Permutation_map, esort_perm|exact Hi].
Qed.

(* Sorted lists with the same associations are equal. *)
Lemma esorted_ext m1 : forall m2, esorted m1 -> esorted m2 -> (forall n, assoc n m1 = assoc n m2) -> m1 = m2.
Proof.
  induction m1 as [|[k1 v1] m1 IH]; intros m2 H1 H2 He.
  - destruct m2 as [|[k v] m2]; auto. specialize (He k). simpl in He. rewrite bytes_eqb_refl in He. discriminate.
  - destruct m2 as [|[k2 v2] m2].
    { specialize (He k1). simpl in He. rewrite bytes_eqb_refl in He. discriminate. }
    inversion H1 as [|? ? Hs1 Hf1]; inversion H2 as [|? ? Hs2 Hf2]; subst. rewrite Forall_forall in Hf1, Hf2.
    assert (Hk : k1 = k2).
    { destruct (strcmp k1 k2) eqn:E.
      - apply strcmp_eq; auto.
      - pose proof (He k1) as Hx. cbn [assoc] in Hx. rewrite bytes_eqb_refl in Hx.
        assert (Hb : bytes_eqb k1 k2 = false).
        { destruct (bytes_eqb k1 k2) eqn:Eb; auto. apply bytes_eqb_eq in Eb. subst. rewrite strcmp_refl in E. discriminate. }
        rewrite Hb in Hx. symmetry in Hx. apply assoc_in in Hx; [|apply esorted_nodup; auto].
        apply Hf2 in Hx. unfold elt in Hx. cbn [fst] in Hx.
        pose proof (strcmp_trans _ _ _ Hx E) as Hc. rewrite strcmp_refl in Hc. discriminate.
      - apply strcmp_gt in E. pose proof (He k2) as Hx. cbn [assoc] in Hx. rewrite bytes_eqb_refl in Hx.
        assert (Hb : bytes_eqb k2 k1 = false).
        { destruct (bytes_eqb k2 k1) eqn:Eb; auto. apply bytes_eqb_eq in Eb. subst. rewrite strcmp_refl in E. discriminate. }
        rewrite Hb in Hx. apply assoc_in in Hx; [|apply esorted_nodup; auto].
        apply Hf1 in Hx. unfold elt in Hx. cbn [fst] in Hx.
        pose proof (strcmp_trans _ _ _ Hx E) as Hc. rewrite strcmp_refl in Hc. discriminate. }
    subst k2. assert (Hv : v1 = v2).
    { specialize (He k1). cbn [assoc] in He. rewrite bytes_eqb_refl in He. congruence. }
    subst v2. f_equal. apply IH; auto. intros n. specialize (He n). cbn [assoc] in He.
    destruct (bytes_eqb n k1) eqn:E; auto. apply bytes_eqb_eq in E. subst n.
    pose proof (esorted_nodup _ H1) as N1. pose proof (esorted_nodup _ H2) as N2. cbn [map fst] in N1, N2.
    inversion N1; inversion N2; subst.
    rewrite (proj1 (assoc_none _ _)) by auto. symmetry. apply assoc_none. auto.
Qed.

(* ------------------------------------------------ representation *)
Record rep1 (me : endian) (s : attrset) (a : attr) (e : entry) : Prop := {
  r_dtype : at_dtype a = av_dtype (snd e);
  r_nmemb : at_nmemb a = av_nmemb (snd e);
  r_dt : dt_ok me (av_dtype (snd e));
  r_n0 : 0 <= av_nmemb (snd e);
  r_nul : nul_free (fst e);
  r_name : load (as_mem s) (at_name a) (length (fst e) + 1) = Some (fst e ++ [x00]);
  r_at : at_data a = at_name a + zlen (fst e) + 1;
  r_data : load (as_mem s) (at_data a) (length (av_data (snd e))) = Some (av_data (snd e));
  r_len : zlen (av_data (snd e)) = av_nmemb (snd e) * itemsize me (av_dtype (snd e));
  r_max : zlen (av_data (snd e)) < 2 ^ 31;
  r_lo : as_base s <= at_name a;
  r_hi : at_data a + zlen (av_data (snd e)) <= as_base s + as_bufused s
}.

Record as_ok (me : endian) (s : attrset) (m : list entry) : Prop := {
  ok_rep : Forall2 (rep1 me s) (as_list s) m;
  ok_sorted : esorted m;
  ok_dom : forall x, as_mem s x = None <-> ~ (as_base s <= x < as_base s + as_bufsize s);
  ok_used : 0 <= as_bufused s <= as_bufsize s;
  ok_min : 128 <= as_bufsize s <= 2 ^ 62;
  ok_cnt : zlen (as_list s) <= as_bufused s;
  ok_ls : zlen (as_list s) <= as_listsize s;
  ok_lmin : 16 <= as_listsize s <= 2 ^ 62
}.

Lemma cstr_load m n : forall fuel, (length n < fuel)%nat -> nul_free n ->
  forall a, load m a (length n + 1) = Some (n ++ [x00]) -> cstr m a fuel = Ret n.
Proof.
  induction n as [|c n IH]; intros fuel Hf Hn a H; destruct fuel as [|fuel]; try (simpl in Hf; lia).
  - simpl in *. destruct (m a) as [b|]; [|discriminate]. inversion H. subst. reflexivity.
  - cbn [length plus app] in H. cbn [load] in H. cbn [cstr].
    destruct (m a) as [b|]; [|discriminate]. destruct (load m (a + 1) (length n + 1)) eqn:E; [|discriminate].
    inversion H. subst.
    assert (Hc : Byte.eqb c x00 = false).
    { destruct (Byte.eqb c x00) eqn:Ec; auto. apply byte_eqb_eq in Ec. subst. exfalso. apply Hn. left. auto. }
    rewrite Hc. rewrite IH; auto; [simpl in Hf; lia|]. intros Hi. apply Hn. right. auto.
Qed.

Lemma rep_name me s a e : rep1 me s a e -> as_bufused s <= as_bufsize s -> attr_name s a = Ret (fst e).
Proof.
  intros R Hb. unfold attr_name. apply cstr_load; try apply R.
  destruct R. pose proof (zlen_nonneg (av_data (snd e))). unfold zlen in *. lia.
Qed.

Lemma rep_names me s : as_bufused s <= as_bufsize s -> forall l m, Forall2 (rep1 me s) l m -> names_of s l = Ret (map fst m).
Proof.
  intros Hb. induction 1 as [|a e l m R F IH]; simpl; auto.
  rewrite (rep_name _ _ _ _ R Hb), IH. reflexivity.
Qed.

Lemma ok_names me s m : as_ok me s m -> attr_names s = Ret (map fst m).
Proof. intros H. eapply rep_names; apply H. Qed.

(* ------------------------------------------------ lookup *)
Lemma F2_nth {A B} (R : A -> B -> Prop) l m i a : Forall2 R l m -> nth_error l i = Some a -> exists e, nth_error m i = Some e /\ R a e.
Proof.
  intros H. revert i. induction H; intros [|i] Hi; simpl in *; try discriminate; eauto.
  inversion Hi. subst. eauto.
Qed.

Lemma bsearch_spec me s m key : as_bufused s <= as_bufsize s -> Forall2 (rep1 me s) (as_list s) m -> esorted m ->
  forall fuel lo hi, (lo <= hi)%nat -> (hi <= length m)%nat -> (hi - lo < fuel)%nat ->
  (forall i e, nth_error m i = Some e -> (i < lo)%nat -> strcmp (fst e) key = Lt) ->
  (forall i e, nth_error m i = Some e -> (hi <= i)%nat -> strcmp key (fst e) = Lt) ->
  (exists i v, bsearch s key lo hi fuel = Ret (Some i) /\ nth_error m i = Some (key, v)) \/
  (bsearch s key lo hi fuel = Ret None /\ ~ In key (map fst m)).
Proof.
  intros Hb HF Hs. induction fuel as [|fuel IH]; intros lo hi Hlh Hhi Hfu Hl Hr; [lia|].
  cbn [bsearch]. destruct (lo <? hi)%nat eqn:Elt.
  - apply Nat.ltb_lt in Elt. set (mid := ((lo + hi) / 2)%nat).
    assert (Hmid : (lo <= mid < hi)%nat).
    { unfold mid. split; [apply Nat.div_le_lower_bound; lia|apply Nat.div_lt_upper_bound; lia]. }
    assert (Hlen : length (as_list s) = length m) by (eapply Forall2_length; eauto).
    destruct (nth_error (as_list s) mid) as [a|] eqn:Ea; [|apply nth_error_None in Ea; lia].
    cbn [or_ub bind]. destruct (F2_nth _ _ _ _ _ HF Ea) as (e & Ee & R).
    rewrite (rep_name _ _ _ _ R Hb). cbn [bind].
    destruct (strcmp key (fst e)) eqn:Ec.
    + left. apply strcmp_eq in Ec. subst. exists mid, (snd e). rewrite <- surjective_pairing. auto.
    + apply IH; try lia; auto. intros i e' Hi' Hge.
      destruct (Nat.eq_dec i mid) as [->|]; [rewrite Ee in Hi'; inversion Hi'; subst; auto|].
      apply (strcmp_trans _ (fst e)); auto. eapply (esorted_nth m mid i); eauto. lia.
    + apply IH; try lia; auto. intros i e' Hi' Hge.
      destruct (Nat.eq_dec i mid) as [->|]; [rewrite Ee in Hi'; inversion Hi'; subst; apply strcmp_gt; auto|].
      apply (strcmp_trans _ (fst e)); [|apply strcmp_gt; auto]. eapply (esorted_nth m i mid); eauto. lia.
  - right. split; auto. intros Hi. apply in_map_iff in Hi. destruct Hi as (e & He & Hi).
    apply In_nth_error in Hi. destruct Hi as [i Hi]. apply Nat.ltb_ge in Elt.
    destruct (Nat.lt_ge_cases i lo).
    + specialize (Hl _ _ Hi ltac:(lia)). rewrite He, strcmp_refl in Hl. discriminate.
    + specialize (Hr _ _ Hi ltac:(lia)). rewrite He, strcmp_refl in Hr. discriminate.
Qed.

Lemma lookup_spec me s m key : as_ok me s m ->
  (exists i a v, lookup_index s key = Ret (Some i) /\ nth_error (as_list s) i = Some a /\
     attrset_lookup_attr s key = Ret (Some a) /\ nth_error m i = Some (key, v) /\
     rep1 me s a (key, v) /\ assoc key m = Some v) \/
  (lookup_index s key = Ret None /\ attrset_lookup_attr s key = Ret None /\ assoc key m = None).
Proof.
  intros H. pose proof (Forall2_length (ok_rep _ _ _ H)) as Hlen.
  destruct (bsearch_spec me s m key ltac:(apply H) ltac:(apply H) ltac:(apply H) (S (length (as_list s))) 0 (length (as_list s))) as [(i & v & E & Hi)|[E Hn]];
    try lia.
  - intros i e Hi Hge. assert (nth_error m i <> None) by congruence. apply nth_error_Some in H0. lia.
  - left. unfold attrset_lookup_attr, lookup_index. rewrite E. cbn [bind].
    assert (Hil : (i < length (as_list s))%nat) by (rewrite Hlen; apply nth_error_Some; congruence).
    destruct (nth_error (as_list s) i) as [a|] eqn:Ea; [|apply nth_error_None in Ea; lia].
    destruct (F2_nth _ _ _ _ _ (ok_rep _ _ _ H) Ea) as (e & Ee & R). rewrite Hi in Ee. inversion Ee. subst.
    exists i, a, v. repeat split; auto; try apply R.
    apply assoc_in; [apply esorted_nodup, H|]. eapply nth_error_In; eauto.
  - right. unfold attrset_lookup_attr, lookup_index. rewrite E. repeat split; auto. apply assoc_none. auto.
Qed.

Lemma ok_shows me s m n : as_ok me s m -> attr_shows s n (assoc n m).
Proof.
  intros H. destruct (lookup_spec _ _ _ n H) as [(i & a & v & _ & _ & E & _ & R & Ea)|(_ & E & Ea)]; rewrite Ea; simpl; auto.
  exists a. repeat split; auto; apply R.
Qed.

(* ------------------------------------------------ remove *)
Lemma Forall2_remove {A B} (R : A -> B -> Prop) i : forall l m, Forall2 R l m ->
  Forall2 R (firstn i l ++ skipn (S i) l) (firstn i m ++ skipn (S i) m).
Proof.
  induction i as [|i IH]; intros l m H; destruct H; simpl; auto. constructor; auto. apply IH. auto.
Qed.
Lemma SSorted_remove {A} (R : A -> A -> Prop) i : forall l, StronglySorted R l -> StronglySorted R (firstn i l ++ skipn (S i) l).
Proof.
  induction i as [|i IH]; intros l H; destruct H; simpl; auto; try constructor; auto.
  - apply IH. auto.
  - rewrite Forall_forall in *. intros x Hx. apply H0. apply in_app_or in Hx. destruct Hx as [Hx|Hx].
    + rewrite <- (firstn_skipn i l). apply in_or_app. auto.
    + match type of Hx with In _ ?t => change t with (skipn (S i) l) in Hx end.
      rewrite <- (firstn_skipn (S i) l). apply in_or_app. auto.
Qed.

Definition edrop (key : bytes) (m : list entry) : list entry :=
  filter (fun e => negb (bytes_eqb (fst e) key)) m.

Lemma edrop_notin key m : ~ In key (map fst m) -> edrop key m = m.
Proof.
  induction m as [|[k v] m IH]; simpl; auto. intros H.
  destruct (bytes_eqb k key) eqn:E; [apply bytes_eqb_eq in E; subst; tauto|]. cbn [negb]. f_equal. apply IH. tauto.
Qed.

Lemma remove_nth_edrop key v : forall m i, NoDup (map fst m) -> nth_error m i = Some (key, v) ->
  firstn i m ++ skipn (S i) m = edrop key m.
Proof.
  induction m as [|[k u] m IH]; intros i Hd Hi; [destruct i; discriminate|].
  inversion Hd as [|? ? Hk Hd']; subst. destruct i as [|i]; simpl in Hi.
  - inversion Hi. subst. cbn [edrop filter fst]. rewrite bytes_eqb_refl. cbn [negb firstn skipn app].
    symmetry. apply edrop_notin. auto.
  - cbn [firstn skipn app edrop filter fst].
    assert (E : bytes_eqb k key = false).
    { destruct (bytes_eqb k key) eqn:E; auto. apply bytes_eqb_eq in E. subst. exfalso. apply Hk.
      apply nth_error_In in Hi. apply (in_map fst) in Hi. exact Hi. }
    rewrite E. cbn [negb]. f_equal. apply IH; auto.
Qed.

Lemma assoc_edrop n key m : assoc n (edrop key m) = if bytes_eqb n key then None else assoc n m.
Proof.
  induction m as [|[k v] m IH]; cbn [edrop filter assoc fst]; [destruct (bytes_eqb n key); auto|].
  destruct (bytes_eqb k key) eqn:E; cbn [negb].
  - apply bytes_eqb_eq in E. subst. unfold edrop in IH. rewrite IH. destruct (bytes_eqb n key); auto.
  - cbn [assoc]. unfold edrop in IH. rewrite IH. destruct (bytes_eqb n k) eqn:En; auto.
    apply bytes_eqb_eq in En. subst. rewrite E. reflexivity.
Qed.

Lemma rep1_ext me s s' a e : as_mem s' = as_mem s -> as_base s' = as_base s -> as_bufused s <= as_bufused s' ->
  rep1 me s a e -> rep1 me s' a e.
Proof. intros Hm Hb Hu []. constructor; auto; try (rewrite Hm; auto); lia. Qed.

Lemma Forall2_impl2 {A B} (P Q : A -> B -> Prop) l m : (forall a b, P a b -> Q a b) -> Forall2 P l m -> Forall2 Q l m.
Proof. intros H. induction 1; constructor; auto. Qed.

Lemma Forall2_impl_r {A B} (P : A -> B -> Prop) (Q : B -> Prop) (R : A -> B -> Prop) l m :
  Forall2 P l m -> Forall Q m -> (forall a b, P a b -> Q b -> R a b) -> Forall2 R l m.
Proof. intros H HQ HI. induction H; inversion HQ; subst; constructor; auto. Qed.

Lemma remove_spec me s m key : as_ok me s m ->
  match assoc key m with
  | None => attrset_remove_attr s key = Ret (-1, s)
  | Some _ => exists l', attrset_remove_attr s key = Ret (0, set_list s l') /\ as_ok me (set_list s l') (edrop key m)
  end.
Proof.
  intros H. destruct (lookup_spec _ _ _ key H) as [(i & a & v & E & En & _ & Ei & R & Ea)|(E & _ & Ea)]; rewrite Ea;
    unfold attrset_remove_attr; rewrite E; cbn [bind]; auto.
  eexists. split; [reflexivity|]. destruct H.
  rewrite <- (remove_nth_edrop key v m i) by (auto; apply esorted_nodup; auto).
  assert (Hl : (length (firstn i (as_list s) ++ skipn (S i) (as_list s)) <= length (as_list s))%nat).
  { rewrite app_length, firstn_length, skipn_length. lia. }
  constructor; cbn [set_list as_list as_mem as_base as_bufused as_bufsize as_listsize]; auto.
  - apply Forall2_remove. eapply Forall2_impl2; [|exact ok_rep0]. intros x y. apply rep1_ext; auto. simpl. lia.
  - apply SSorted_remove. auto.
  - unfold zlen in *. lia.
  - unfold zlen in *. lia.
Qed.

(* ------------------------------------------------ adding *)
Lemma rep_insert me s (P : attr -> entry -> Prop) x ex : (forall a e, P a e -> rep1 me s a e) ->
  as_bufused s <= as_bufsize s -> P x ex -> forall l m, Forall2 P l m ->
  exists l', insert_sorted s x l = Ret l' /\ Forall2 P l' (eins ex m).
Proof.
  intros HP Hb Rx. induction 1 as [|y ey l m Ry F IH]; cbn [insert_sorted eins].
  - eexists. split; [reflexivity|]. constructor; auto.
  - rewrite (rep_name _ _ _ _ (HP _ _ Rx) Hb), (rep_name _ _ _ _ (HP _ _ Ry) Hb). cbn [bind].
    destruct IH as (l' & E & F'). destruct (strcmp (fst ex) (fst ey)).
    + eexists. split; [reflexivity|]. constructor; auto.
    + eexists. split; [reflexivity|]. constructor; auto.
    + rewrite E. cbn [bind]. eexists. split; [reflexivity|]. constructor; auto.
Qed.

Lemma rep_sort me s (P : attr -> entry -> Prop) : (forall a e, P a e -> rep1 me s a e) ->
  as_bufused s <= as_bufsize s -> forall l m, Forall2 P l m ->
  exists l', qsort_attr s l = Ret l' /\ Forall2 P l' (esort m) /\ length l' = length l.
Proof.
  intros HP Hb. induction 1 as [|y ey l m Ry F IH]; cbn [qsort_attr esort]; [eauto|].
  destruct IH as (l' & E & F' & L). rewrite E. cbn [bind].
  destruct (rep_insert me s P y ey HP Hb Ry l' (esort m) F') as (l2 & E2 & F2). exists l2. repeat split; auto.
  rewrite (Forall2_length F2). rewrite (Permutation_length (eins_perm ey (esort m))). simpl.
  rewrite <- (Forall2_length F'), L. reflexivity.
Qed.

Lemma grow_list_spec used : 0 <= used -> used < 2 ^ 61 -> forall fuel ls, 16 <= ls <= 2 ^ 62 -> used <= ls ->
  used < ls * 2 ^ Z.of_nat fuel ->
  exists ls', grow_list ls used (S fuel) = Ret ls' /\ used < ls' /\ 16 <= ls' <= 2 ^ 62.
Proof.
  intros H0 H1. induction fuel as [|fuel IH]; intros ls Hl Hu Hf; cbn [grow_list];
    unfold u64; rewrite Z.mod_small by lia; destruct (ls - used <? 1) eqn:E.
  - cbn in Hf. lia.
  - exists ls. repeat split; auto; lia.
  - assert (ls < 2 ^ 61) by lia. apply IH; try lia.
    rewrite Nat2Z.inj_succ, Z.pow_succ_r in Hf by lia. lia.
  - exists ls. repeat split; auto; lia.
Qed.

Lemma rep1_move me s nbase nsize a e : as_bufused s <= as_bufsize s -> as_bufsize s <= nsize ->
  rep1 me s a e ->
  rep1 me (mkAS (as_dirty s) (realloc_mem (as_mem s) (as_base s) (as_bufsize s) nbase nsize) nbase
             (as_bufused s) nsize (map (shift_attr nbase) (map (shift_attr (- as_base s)) (as_list s))) (as_listsize s))
    (shift_attr nbase (shift_attr (- as_base s) a)) e.
Proof.
  intros Hb Hn R. pose proof R as R'. destruct R'.
  pose proof (zlen_nonneg (av_data (snd e))). pose proof (zlen_nonneg (fst e)).
  assert (Hld : forall x n, as_base s <= x -> x + Z.of_nat n <= as_base s + as_bufused s ->
    load (realloc_mem (as_mem s) (as_base s) (as_bufsize s) nbase nsize) (x + - as_base s + nbase) n = load (as_mem s) x n).
  { intros x n Hx1 Hx2. revert x Hx1 Hx2. induction n as [|n IHn]; intros x Hx1 Hx2; cbn [load]; auto.
    replace (x + - as_base s + nbase + 1) with (x + 1 + - as_base s + nbase) by lia. rewrite IHn by lia.
    unfold realloc_mem at 1.
    destruct ((nbase <=? x + - as_base s + nbase) && (x + - as_base s + nbase <? nbase + nsize)) eqn:E1; [|lia].
    destruct (x + - as_base s + nbase - nbase <? as_bufsize s) eqn:E2; [|lia].
    replace (x + - as_base s + nbase - nbase + as_base s) with x by lia. reflexivity. }
  constructor; cbn [as_mem as_base as_bufused shift_attr at_name at_data at_dtype at_nmemb]; auto; try lia.
  - rewrite Hld; auto. unfold zlen in *. lia.
  - rewrite Hld; auto; unfold zlen in *; lia.
Qed.

Lemma grow_buf_S ra s size k : grow_buf ra s size (S k) =
  if u64 (as_bufsize s - as_bufused s) <? size then
    grow_buf ra (mkAS (as_dirty s)
      (realloc_mem (as_mem s) (as_base s) (as_bufsize s) (ra (as_base s) (as_bufsize s * 2)) (as_bufsize s * 2))
      (ra (as_base s) (as_bufsize s * 2)) (as_bufused s) (as_bufsize s * 2)
      (map (shift_attr (ra (as_base s) (as_bufsize s * 2))) (map (shift_attr (- as_base s)) (as_list s))) (as_listsize s)) size k
  else Ret s.
Proof. reflexivity. Qed.

Lemma grow_buf_spec ra me m size : 0 <= size -> forall fuel s, as_ok me s m ->
  as_bufused s + size <= 2 ^ 61 -> as_bufused s + size <= as_bufsize s * 2 ^ Z.of_nat fuel ->
  exists s', grow_buf ra s size (S fuel) = Ret s' /\ as_ok me s' m /\ as_bufused s' = as_bufused s /\
    as_bufused s + size <= as_bufsize s' /\ as_dirty s' = as_dirty s /\ as_listsize s' = as_listsize s.
Proof.
  intros Hsz. induction fuel as [|fuel IH]; intros s H H61 Hf; rewrite grow_buf_S;
    pose proof H as H'; destruct H'; unfold u64; rewrite (Z.mod_small (as_bufsize s - as_bufused s)) by lia;
    destruct (as_bufsize s - as_bufused s <? size) eqn:E.
  - cbn in Hf. lia.
  - exists s. split; [reflexivity|]. split; [exact H|]. repeat split; auto; lia.
  - match goal with |- context [grow_buf ra ?S0 size _] => set (s0 := S0) end.
    assert (Hok : as_ok me s0 m).
    { assert (Hg : forall l, Forall2 (rep1 me s) l m -> Forall2 (rep1 me s0) (map (shift_attr (ra (as_base s) (as_bufsize s * 2))) (map (shift_attr (- as_base s)) l)) m).
      { intros l F. clear - F ok_used0 ok_min0 s0. induction F; cbn [map]; constructor; auto. apply rep1_move; auto; lia. }
      constructor; unfold s0; cbn [as_list as_mem as_base as_bufused as_bufsize as_listsize]; auto; try lia.
      - intros x. unfold realloc_mem. set (nb := ra _ _).
        destruct ((nb <=? x) && (x <? nb + as_bufsize s * 2)) eqn:Ex.
        + split; [|lia]. destruct (x - nb <? as_bufsize s) eqn:Ey; [|discriminate].
          intros Hx. apply ok_dom0 in Hx. lia.
        + split; auto. lia.
      - unfold zlen in *. rewrite !map_length. auto.
      - unfold zlen in *. rewrite !map_length. auto. }
    destruct (IH s0 Hok) as (s' & E' & A & B & C & D & F); unfold s0 in *; cbn [as_bufused as_bufsize as_dirty as_listsize] in *; auto.
    { rewrite Nat2Z.inj_succ, Z.pow_succ_r in Hf by lia. lia. }
    exists s'. rewrite E'. split; [reflexivity|]. split; [exact A|]. repeat split; auto.
  - exists s. split; [reflexivity|]. split; [exact H|]. repeat split; auto; lia.
Qed.

(* A store into the free part of the buffer keeps all entries. *)
Lemma rep1_store me s a e x l mem' s' : rep1 me s a e ->
  (forall y, ~ (x <= y < x + l) -> mem' y = as_mem s y) -> as_base s + as_bufused s <= x ->
  as_mem s' = mem' -> as_base s' = as_base s -> as_bufused s <= as_bufused s' -> rep1 me s' a e.
Proof.
  intros R Hf Hx Hm Hb Hu. destruct R.
  pose proof (zlen_nonneg (av_data (snd e))). pose proof (zlen_nonneg (fst e)).
  assert (Hld : forall y n, y + Z.of_nat n <= as_base s + as_bufused s -> load mem' y n = load (as_mem s) y n).
  { intros y n Hy. apply load_ext. intros k Hk. apply Hf. lia. }
  constructor; auto; try lia; rewrite Hm, Hld; auto; unfold zlen in *; lia.
Qed.

Lemma normalize_itemsize_pos me dtype : 0 < itemsize me dtype -> itemsize me (dtype_normalize me dtype) = itemsize me dtype.
Proof. intros. apply itemsize_normalize. Qed.

(* attrset_add_attr: entry added with unspecified data bytes. *)
Lemma add_spec ra me s m name dtype n : as_ok me s m -> assoc name m = None -> nul_free name ->
  0 < itemsize me dtype -> 0 <= n -> itemsize me dtype * n < 2 ^ 31 ->
  as_bufused s + (itemsize me dtype * n + zlen name + 1) <= 2 ^ 61 ->
  exists s' d, attrset_add_attr ra me s name dtype n = Ret s' /\
    as_ok me s' (esort (m ++ [(name, mkAval (dtype_normalize me dtype) n d)])) /\
    Forall2 (fun a e => (fst e <> name -> at_data a + zlen (av_data (snd e)) <= as_base s' + as_bufused s) /\
                        (fst e = name -> at_name a = as_base s' + as_bufused s))
      (as_list s') (esort (m ++ [(name, mkAval (dtype_normalize me dtype) n d)])) /\
    zlen d = itemsize me dtype * n /\ as_dirty s' = as_dirty s /\
    as_bufused s' = as_bufused s + (itemsize me dtype * n + zlen name + 1).
Proof.
  intros H Hnone Hnul Hw Hn H31 Hbig. unfold attrset_add_attr.
  set (w := itemsize me dtype) in *. assert (0 <= w * n) by nia.
  destruct ((2 ^ 31 <=? w * n) || (w * n <? - 2 ^ 31)) eqn:E; [lia|]. clear E.
  pose proof (zlen_nonneg name) as Hzn.
  pose proof (ok_used _ _ _ H) as Hus.
  replace (u64 (w * n + zlen name + 1)) with (w * n + zlen name + 1) by (unfold u64; rewrite Z.mod_small; lia).
  set (size := w * n + zlen name + 1) in *.
  destruct (grow_buf_spec ra me m size ltac:(lia) 63 s H Hbig) as (s1 & E1 & H1 & B1 & C1 & D1 & L1).
  { pose proof (ok_min _ _ _ H). assert (2 ^ 62 <= 2 ^ Z.of_nat 63) by (apply Z.pow_le_mono_r; lia). nia. }
  rewrite E1. cbn [bind].
  set (free := as_base s1 + as_bufused s1).
  unfold attrset_append_attr. cbn [as_listsize as_list as_dirty as_mem as_base as_bufused as_bufsize].
  pose proof H1 as H1'. destruct H1'.
  pose proof (zlen_nonneg (as_list s1)).
  destruct (grow_list_spec (zlen (as_list s1)) ltac:(lia) ltac:(lia) 63 (as_listsize s1) ok_lmin0 ok_ls0) as (ls & El & Hl1 & Hl2).
  { assert (2 ^ 62 <= 2 ^ Z.of_nat 63) by (apply Z.pow_le_mono_r; lia). nia. }
  rewrite El. cbn [bind]. destruct (zlen (as_list s1) <? ls) eqn:E; [|lia]. clear E. cbn [bind as_mem].
  destruct (store_some (name ++ [x00]) (as_mem s1) free) as (m' & Em).
  { intros k Hk. rewrite app_length in Hk. simpl in Hk. intros Hx. apply ok_dom0 in Hx. unfold free, zlen in *. lia. }
  rewrite Em. cbn [or_ub bind].
  set (s4 := set_mem _ m').
  (* the new entry *)
  assert (Hmap : forall x, free <= x < free + size -> m' x <> None).
  { intros x Hx Hy. apply (store_domain _ _ _ _ Em) in Hy. apply ok_dom0 in Hy. unfold free in *. lia. }
  destruct (load_some m' (free + zlen name + 1) (Z.to_nat (w * n))) as (d & Ed).
  { intros k Hk. apply Hmap. unfold size. lia. }
  pose proof (load_length _ _ _ _ Ed) as Ld.
  set (a := mkAttr n (dtype_normalize me dtype) free (free + zlen name + 1)) in *.
  set (e := (name, mkAval (dtype_normalize me dtype) n d)).
  assert (Ra : rep1 me s4 a e).
  { constructor; unfold e, a, s4; cbn [fst snd av_dtype av_nmemb av_data at_dtype at_nmemb at_name at_data as_mem set_mem as_base as_bufused]; auto.
    - apply dt_ok_normalize. auto.
    - pose proof (load_store_same _ _ _ _ Em) as Hl. rewrite app_length in Hl. exact Hl.
    - rewrite Ld. exact Ed.
    - rewrite itemsize_normalize. unfold zlen. fold w. rewrite Ld. lia.
    - unfold zlen. lia.
    - unfold free. lia.
    - unfold free, size, zlen. lia. }
  set (P := fun a e => rep1 me s4 a e /\ (fst e <> name -> at_data a + zlen (av_data (snd e)) <= as_base s1 + as_bufused s) /\
                        (fst e = name -> at_name a = as_base s1 + as_bufused s)).
  assert (Fall : Forall2 P (as_list s1 ++ [a]) (m ++ [e])).
  { assert (Hne : Forall (fun y => fst y <> name) m).
    { apply Forall_forall. intros y Hy <-. apply assoc_none in Hnone. apply Hnone. apply in_map. auto. }
    apply Forall2_app.
    2: { constructor; auto. split; [exact Ra|]. unfold e, a, free. cbn [fst at_name]. split; [congruence|]. rewrite B1. auto. }
    apply (Forall2_impl_r (rep1 me s1) (fun y => fst y <> name)); auto. intros x y R Hxy.
    split; [|split; [intros _; rewrite <- B1; apply R|congruence]].
    eapply (rep1_store me s1 x y free (zlen (name ++ [x00])) m'); eauto; unfold s4; cbn [as_mem set_mem as_base as_bufused]; auto; try (unfold free; lia).
    intros z Hz. eapply store_frame; eauto. }
  assert (Hb4 : as_bufused s4 <= as_bufsize s4).
  { unfold s4. cbn [as_bufused set_mem as_bufsize]. lia. }
  change (as_list s4) with (as_list s1 ++ [a]).
  destruct (rep_sort me s4 P (fun x y H => proj1 H) Hb4 _ _ Fall) as (l' & Es & F' & Ll). rewrite Es. cbn [bind].
  assert (Hnd : NoDup (map fst (m ++ [e]))).
  { rewrite map_app. cbn [map fst e]. apply (Permutation_NoDup (Permutation_cons_append _ _)). constructor; [apply assoc_none; auto|apply esorted_nodup; auto]. }
  exists (set_list s4 l'), d. split; [reflexivity|]. split; [|repeat split].
  - constructor; cbn [set_list as_list as_mem as_base as_bufused as_bufsize as_listsize].
    + eapply Forall2_impl2; [|exact F']. intros x y [Hr _]. revert Hr. apply rep1_ext; auto. simpl. lia.
    + apply esort_sorted. auto.
    + intros x. unfold s4. cbn [as_mem set_mem as_base as_bufsize]. rewrite <- (store_domain _ _ _ _ Em). apply ok_dom0.
    + unfold s4. cbn [as_bufused set_mem as_bufsize]. lia.
    + unfold s4. cbn [set_mem as_bufsize]. lia.
    + unfold s4, zlen. cbn [as_bufused set_mem]. rewrite Ll, app_length. unfold zlen in *. simpl. lia.
    + unfold s4, zlen. cbn [as_listsize set_mem]. rewrite Ll, app_length. unfold zlen in *. simpl. lia.
    + unfold s4. cbn [as_listsize set_mem]. lia.
  - eapply Forall2_impl2; [|exact F']. intros x y [_ Hr]. exact Hr.
  - unfold zlen. lia.
  - unfold s4. simpl. auto.
  - unfold s4. cbn [set_list as_bufused set_mem]. lia.
Qed.

Lemma esorted_fst m : esorted m <-> StronglySorted (fun x y => strcmp x y = Lt) (map fst m).
Proof.
  induction m as [|e m IH]; simpl; split; intros H; try constructor; inversion H; subst; auto; try (apply IH; auto).
  - rewrite Forall_forall in *. intros x Hx. apply in_map_iff in Hx. destruct Hx as (y & <- & Hy). apply H3. auto.
  - rewrite Forall_forall in *. intros x Hx. apply H3. apply in_map. auto.
Qed.

Definition eput (name : bytes) (v : aval) (m : list entry) : list entry :=
  map (fun e => if bytes_eqb (fst e) name then (fst e, v) else e) m.

Lemma eput_fst name v m : map fst (eput name v m) = map fst m.
Proof. unfold eput. rewrite map_map. apply map_ext. intros [k u]. cbn [fst]. destruct (bytes_eqb k name); auto. Qed.

Lemma bytes_eqb_sym a b : bytes_eqb a b = bytes_eqb b a.
Proof.
  destruct (bytes_eqb a b) eqn:E.
  - apply bytes_eqb_eq in E. subst. rewrite bytes_eqb_refl. auto.
  - destruct (bytes_eqb b a) eqn:E2; auto. apply bytes_eqb_eq in E2. subst. rewrite bytes_eqb_refl in E. discriminate.
Qed.
Lemma bytes_eqb_neq a b : a <> b -> bytes_eqb a b = false.
Proof. intros H. destruct (bytes_eqb a b) eqn:E; auto. apply bytes_eqb_eq in E. contradiction. Qed.

Lemma assoc_eput n name v m : assoc n (eput name v m) =
  if bytes_eqb n name then match assoc n m with Some _ => Some v | None => None end else assoc n m.
Proof.
  induction m as [|[k u] m IH]; cbn [eput map assoc fst]; [destruct (bytes_eqb n name); auto|].
  change (map (fun e => if bytes_eqb (fst e) name then (fst e, v) else e) m) with (eput name v m).
  destruct (bytes_eqb k name) eqn:E1; cbn [assoc].
  - apply bytes_eqb_eq in E1. subst k. rewrite IH. destruct (bytes_eqb n name); auto.
  - rewrite IH. destruct (bytes_eqb n k) eqn:E2; auto. apply bytes_eqb_eq in E2. subst n. rewrite E1. auto.
Qed.

(* Storing the data of one entry. *)
Lemma put_data me s m name n d dm v lo :
  as_ok me s m -> assoc name m = Some (mkAval d n v) ->
  Forall2 (fun a e => (fst e <> name -> at_data a + zlen (av_data (snd e)) <= as_base s + lo) /\
                      (fst e = name -> at_name a = as_base s + lo)) (as_list s) m ->
  forall a v', attrset_lookup_attr s name = Ret (Some a) -> zlen v' = zlen v ->
  load dm (at_data a) (length v') = Some v' ->
  (forall x, ~ (at_data a <= x < at_data a + zlen v) -> dm x = as_mem s x) ->
  as_ok me (set_mem s dm) (eput name (mkAval d n v') m).
Proof.
  intros H Ha HF a v' El Hv Hld Hfr.
  destruct (lookup_spec _ _ _ name H) as [(i & a0 & u & _ & Hi & E & Hm & R & Ea)|(_ & E & Ea)]; [|congruence].
  rewrite E in El. inversion El; subst a0. rewrite Ea in Ha. inversion Ha; subst u. clear El Ha.
  assert (Hn : at_name a = as_base s + lo).
  { destruct (F2_nth _ _ _ _ _ HF Hi) as (e & He & _ & Hx). pose proof (eq_trans (eq_sym Hm) He) as Hc. inversion Hc; subst. apply Hx. reflexivity. }
  pose proof R as R'. destruct R'. cbn [fst snd av_dtype av_nmemb av_data] in *.
  pose proof (zlen_nonneg name). pose proof (zlen_nonneg v).
  pose proof H as H'. destruct H'.
  constructor; cbn [set_mem as_list as_mem as_base as_bufused as_bufsize as_listsize]; auto.
  - assert (Huniq : forall a', In (a', name) (combine (as_list s) (map fst m)) -> a' = a).
    { intros a' Hin. pose proof (esorted_nodup _ ok_sorted0) as Hnd.
      apply In_nth_error in Hin. destruct Hin as [j Hj].
      assert (Hj1 : nth_error (as_list s) j = Some a' /\ nth_error (map fst m) j = Some name).
      { clear - Hj. revert Hj. generalize (as_list s) (map fst m). intros l. revert j.
        induction l as [|x l IH]; intros j ll Hj; [destruct j; discriminate|].
        destruct ll as [|y ll]; [destruct j; discriminate|]. destruct j; simpl in *; [inversion Hj; auto|]. apply IH. auto. }
      destruct Hj1 as [Hj1 Hj2].
      assert (Hm2 : nth_error (map fst m) i = Some name) by (apply (map_nth_error fst i m Hm)).
      assert (j = i).
      { rewrite NoDup_nth_error in Hnd. apply Hnd; [apply nth_error_Some; congruence|congruence]. }
      subst. congruence. }
    revert Huniq. generalize dependent (as_list s). intros l HF _ F _ _ Huniq. clear Ea Hm E ok_sorted0 H. revert m F HF Huniq.
    induction l as [|x l IH]; intros m F HF Huniq; inversion F as [|? y ? m' Rx F']; subst; inversion HF as [|? ? ? ? HFx HF']; subst; cbn [eput map]; constructor.
    + cbn [fst] in *. destruct HFx as [Hx1 Hx2].
      destruct (bytes_eqb (fst y) name) eqn:Ey.
      * apply bytes_eqb_eq in Ey. assert (x = a) by (apply Huniq; left; rewrite <- Ey; reflexivity). subst x.
        destruct y as [yn yv]. cbn [fst] in Ey. subst yn. destruct Rx. cbn [fst snd] in *.
        constructor; cbn [fst snd av_dtype av_nmemb av_data set_mem as_mem as_base as_bufused]; auto; try lia.
        -- rewrite <- r_name0. apply load_ext. intros k Hk. apply Hfr. unfold zlen in *. lia.
      * assert (Hne : fst y <> name) by (intros Hc; rewrite Hc, bytes_eqb_refl in Ey; discriminate).
        specialize (Hx1 Hne). clear R Ey.
        destruct Rx. pose proof (zlen_nonneg (av_data (snd y))). pose proof (zlen_nonneg (fst y)).
        constructor; cbn [set_mem as_mem as_base as_bufused]; auto; try lia.
        -- rewrite <- r_name1. apply load_ext. intros k Hk. apply Hfr. unfold zlen in *. lia.
        -- rewrite <- r_data1. apply load_ext. intros k Hk. apply Hfr. unfold zlen in *. lia.
    + apply IH; auto. intros a' Hin. apply Huniq. right. auto.
  - apply esorted_fst. rewrite eput_fst. apply esorted_fst. auto.
  - intros x. rewrite <- ok_dom0. destruct (Z_le_dec (at_data a) x) as [Hx1|Hx1].
    + destruct (Z_lt_dec x (at_data a + zlen v)) as [Hx2|Hx2].
      * split; intros Hx; exfalso.
        -- apply (load_mapped _ _ _ _ Hld (Z.to_nat (x - at_data a))); [unfold zlen in *; lia|].
           replace (at_data a + Z.of_nat (Z.to_nat (x - at_data a))) with x by lia. auto.
        -- apply (load_mapped _ _ _ _ r_data0 (Z.to_nat (x - at_data a))); [unfold zlen in *; lia|].
           replace (at_data a + Z.of_nat (Z.to_nat (x - at_data a))) with x by lia. auto.
      * rewrite Hfr by lia. tauto.
    + rewrite Hfr by lia. tauto.
Qed.

Lemma as_ok_dirty me s m d : as_ok me s m -> as_ok me (set_dirty s d) m.
Proof.
  intros []. constructor; cbn [set_dirty as_list as_mem as_base as_bufused as_bufsize as_listsize]; auto.
  eapply Forall2_impl2; [|exact ok_rep0]. intros x y. apply rep1_ext; auto. simpl. lia.
Qed.

Lemma set_spec ra me s m name um data dtype n v : as_ok me s m -> has_blank name = false -> nul_free name ->
  0 < itemsize me dtype -> 0 <= n -> itemsize me dtype * n < 2 ^ 31 ->
  as_bufused s + (itemsize me dtype * n + zlen name + 1) <= 2 ^ 61 ->
  load um data (Z.to_nat (n * itemsize me dtype)) = Some v ->
  exists s' um' m', attrset_set_attr ra me s name um data dtype n = Ret (0, s', um') /\
    as_ok me s' m' /\ as_dirty s' = true /\
    (forall k, assoc k m' = if bytes_eqb k name then Some (mkAval (dtype_normalize me dtype) n v) else assoc k m) /\
    as_bufused s' = as_bufused s + (itemsize me dtype * n + zlen name + 1) /\
    (dt_native me (dtype_normalize me dtype) = true -> um' = um).
Proof.
  intros H Hb Hnul Hw Hn H31 Hbig Hld. unfold attrset_set_attr. rewrite Hb.
  pose proof (as_ok_dirty _ _ _ true H) as Hd. set (s0 := set_dirty s true) in *.
  (* after the removal *)
  assert (Hrem : exists s1 m1, (r <- attrset_lookup_attr s0 name ;;
      match r with Some _ => '(_, s1) <- attrset_remove_attr s0 name ;; Ret s1 | None => Ret s0 end) = Ret s1 /\
      as_ok me s1 m1 /\ assoc name m1 = None /\ (forall k, k <> name -> assoc k m1 = assoc k m) /\
      as_bufused s1 = as_bufused s /\ as_dirty s1 = true).
  { pose proof (remove_spec me s0 m name Hd) as Hr.
    destruct (lookup_spec _ _ _ name Hd) as [(i & a & u & _ & _ & E & _ & _ & Ea)|(_ & E & Ea)]; rewrite E, Ea in *; cbn [bind].
    - destruct Hr as (l' & Er & Hok). rewrite Er. cbn [bind]. eexists _, _. split; [reflexivity|]. split; [exact Hok|].
      repeat split; auto.
      + rewrite assoc_edrop, bytes_eqb_refl. auto.
      + intros k Hk. rewrite assoc_edrop, bytes_eqb_neq; auto.
    - eexists _, _. split; [reflexivity|]. split; [exact Hd|]. repeat split; auto. }
  destruct Hrem as (s1 & m1 & E1 & H1 & N1 & A1 & B1 & D1).
  assert (Ebind : forall (k : attrset -> out (Z * attrset * mem)),
    (r <- attrset_lookup_attr s0 name ;; s1 <- match r with Some _ => '(_, s1) <- attrset_remove_attr s0 name ;; Ret s1 | None => Ret s0 end ;; k s1) = k s1).
  { intros k. destruct (attrset_lookup_attr s0 name) as [r| |]; cbn [bind] in *; try discriminate.
    rewrite E1. reflexivity. }
  rewrite Ebind. clear Ebind E1.
  destruct (add_spec ra me s1 m1 name dtype n H1 N1 Hnul Hw Hn H31) as (s2 & d & E2 & H2 & F2 & Ld & D2 & B2); [lia|].
  rewrite E2. cbn [bind]. set (m2 := esort _) in *.
  set (nd := dtype_normalize me dtype) in *.
  assert (Hnd : NoDup (map fst (m1 ++ [(name, mkAval nd n d)]))).
  { rewrite map_app. cbn [map fst]. apply (Permutation_NoDup (Permutation_cons_append _ _)).
    constructor; [apply assoc_none; auto|apply esorted_nodup; apply H1]. }
  assert (A2 : forall k, assoc k m2 = if bytes_eqb k name then Some (mkAval nd n d) else assoc k m).
  { intros k. unfold m2. rewrite <- (assoc_perm k (m1 ++ [(name, mkAval nd n d)])); auto; [|apply Permutation_sym, esort_perm].
    rewrite assoc_app. cbn [assoc]. destruct (bytes_eqb k name) eqn:Ek.
    - apply bytes_eqb_eq in Ek. subst k. rewrite N1. auto.
    - assert (k <> name) by (intros ->; rewrite bytes_eqb_refl in Ek; discriminate). rewrite A1 by auto.
      destruct (assoc k m); auto. }
  assert (Aname : assoc name m2 = Some (mkAval nd n d)) by (rewrite A2, bytes_eqb_refl; auto).
  destruct (lookup_spec _ _ _ name H2) as [(i & a & u & _ & _ & E & _ & R & Ea)|(_ & E & Ea)]; [|congruence].
  rewrite Ea in Aname. inversion Aname; subst u. rewrite E. cbn [bind or_ub].
  pose proof (r_nmemb _ _ _ _ R) as Rn. pose proof (r_dtype _ _ _ _ R) as Rd. pose proof (r_data _ _ _ _ R) as Rdat.
  cbn [fst snd av_nmemb av_dtype av_data] in Rn, Rd, Rdat.
  rewrite Rn, Z.eqb_refl. cbn [negb]. rewrite Rd.
  pose proof (load_length _ _ _ _ Hld) as Lv.
  destruct (simple_same me (as_mem s2) (at_data a) nd um data dtype n v Hw) as (dm & um' & Ec & C1 & C2 & C3); auto.
  { apply normalize_idem. }
  { intros x Hx. intros Hxn.
    apply (load_mapped _ _ _ _ Rdat (Z.to_nat (x - at_data a))); [unfold zlen in *; nia|].
    replace (at_data a + Z.of_nat (Z.to_nat (x - at_data a))) with x by lia. auto. }
  rewrite Ec. cbn [bind]. exists (set_mem s2 dm), um', (eput name (mkAval nd n v) m2).
  split; [reflexivity|]. split; [|split; [simpl; congruence|split; [|split; [simpl; lia|auto]]]].
  - apply (put_data me s2 m2 name n nd dm d (as_bufused s1)) with (a := a); auto.
    + unfold zlen in *. rewrite Lv. nia.
    + rewrite Lv. exact C1.
    + intros x Hx. apply C2. nia.
  - intros k. rewrite assoc_eput, A2. destruct (bytes_eqb k name); auto.
Qed.

Lemma set_blank ra me s name um data dtype n : has_blank name = true ->
  attrset_set_attr ra me s name um data dtype n = Ret (-1, set_dirty s true, um).
Proof. intros H. unfold attrset_set_attr. rewrite H. reflexivity. Qed.

Lemma create_ok me base : as_ok me (attrset_create base) [].
Proof.
  constructor; unfold attrset_create; cbn [as_list as_mem as_base as_bufused as_bufsize as_listsize]; try lia; try (constructor; fail); try (unfold zlen; simpl; lia).
  intros x. unfold malloc_mem. destruct ((base <=? x) && (x <? base + 128)) eqn:E; split; intros H; try discriminate; auto; lia.
Qed.

(* ------------------------------------------------ histories *)
Lemma step_spec ra me s m M o : as_ok me s m -> (forall k, assoc k m = M k) -> aop_ok me o ->
  as_bufused s + aop_size me o <= 2 ^ 61 ->
  exists rc s' m', astep ra me s o = Ret (rc, s') /\ as_ok me s' m' /\
    rc = fst (aspec me M o) /\ (forall k, assoc k m' = snd (aspec me M o) k) /\
    as_bufused s' <= as_bufused s + aop_size me o.
Proof.
  intros H HM Hok Hsz. destruct o as [name um data dtype n|name]; cbn [astep aspec aop_size aop_ok] in *.
  - destruct Hok as (Hnul & Hw & Hn & H31 & v & Hv). pose proof (zlen_nonneg name).
    destruct (has_blank name) eqn:Eb.
    + rewrite set_blank by auto. cbn [bind]. eexists _, _, _. split; [reflexivity|]. split; [apply as_ok_dirty; exact H|].
      repeat split; auto. simpl. nia.
    + destruct (set_spec ra me s m name um data dtype n v) as (s' & um' & m' & E & A & B & C & D & F); auto.
      rewrite E. cbn [bind]. eexists _, _, _. split; [reflexivity|]. split; [exact A|]. repeat split; auto; [|lia].
      intros k. cbn [snd]. unfold with_attr, sval. rewrite C, Hv, HM. auto.
  - pose proof (remove_spec me s m name H) as Hr. rewrite HM in Hr. destruct (M name).
    + destruct Hr as (l' & E & A). rewrite E. eexists _, _, _. split; [reflexivity|]. split; [exact A|].
      repeat split; [|simpl; lia]. intros k. cbn [snd]. unfold with_attr. rewrite assoc_edrop, HM. auto.
    + rewrite Hr. eexists _, _, _. split; [reflexivity|]. split; [exact H|]. repeat split; auto. lia.
Qed.

Lemma aop_size_nonneg me o : aop_ok me o -> 0 <= aop_size me o.
Proof. destruct o; simpl; [|lia]. intros (_ & H1 & H2 & _). pose proof (zlen_nonneg name). nia. Qed.

Lemma run_spec ra me : forall os s m M, as_ok me s m -> (forall k, assoc k m = M k) -> Forall (aop_ok me) os ->
  as_bufused s + zsum (map (aop_size me) os) <= 2 ^ 61 ->
  exists s' m', arun ra me s os = Ret (fst (aspecs me M os), s') /\ as_ok me s' m' /\
    (forall k, assoc k m' = snd (aspecs me M os) k).
Proof.
  induction os as [|o os IH]; intros s m M H HM Hok Hsz; cbn [arun aspecs].
  - exists s, m. auto.
  - inversion Hok as [|? ? Ho Hos]; subst. cbn [map zsum fold_right] in Hsz.
    change (fold_right Z.add 0 (map (aop_size me) os)) with (zsum (map (aop_size me) os)) in Hsz.
    assert (0 <= zsum (map (aop_size me) os)).
    { clear - Hos. unfold zsum. induction Hos as [|o l Ho Hl IHl]; cbn [map fold_right]; [lia|]. pose proof (aop_size_nonneg _ _ Ho). lia. }
    destruct (step_spec ra me s m M o H HM Ho) as (rc & s1 & m1 & E & H1 & Hrc & HM1 & Hs1); [lia|].
    rewrite E. cbn [bind]. destruct (aspec me M o) as [rc' M1] eqn:Ea. cbn [fst snd] in *. subst rc'.
    destruct (IH s1 m1 M1 H1 HM1 Hos) as (s2 & m2 & E2 & H2 & HM2); [lia|]. rewrite E2. cbn [bind].
    destruct (aspecs me M1 os) as [rcs M2]. cbn [fst snd] in *. exists s2, m2. auto.
Qed.
