(* Proofs about element conversion between arrays. *)
From Coq.Strings Require Import Byte String.
From Coq Require Import List ZArith Lia Bool ZifyBool ZifyNat.
From Verif Require Import Base BaseFacts Dtype Cast Array FS Block Spec ArrayFacts.
Import ListNotations.
Open Scope Z_scope.
Ltac Zify.zify_post_hook ::= Z.div_mod_to_equations.

(* ------------------------------------------------------ swap = reverse *)
Lemma swap_loop_spec n h : forall l j, length l = n -> (2 * (j + h) <= n)%nat ->
  length (swap_loop l n j h) = n /\
  forall i, (i < n)%nat ->
    nth i (swap_loop l n j h) x00 =
    (if ((j <=? i) && (i <? j + h) || (n - j - h <=? i) && (i <? n - j))%nat
     then nth (n - 1 - i) l x00 else nth i l x00).
Proof.
  induction h as [|h IH]; intros l j Hl Hj; cbn [swap_loop].
  - split; auto. intros i Hi.
    replace ((j <=? i) && (i <? j + 0) || (n - j - 0 <=? i) && (i <? n - j))%nat with false by lia.
    reflexivity.
  - set (l1 := upd (upd l j _) _ _).
    assert (Hl1 : length l1 = n) by (unfold l1; rewrite !upd_length; auto).
    destruct (IH l1 (S j) Hl1 ltac:(lia)) as [Ha Hb]. split; auto.
    intros i Hi. rewrite Hb by auto.
    assert (E : forall i, (i < n)%nat -> nth i l1 x00 =
      if (i =? n - j - 1)%nat then nth j l x00
      else if (i =? j)%nat then nth (n - j - 1) l x00 else nth i l x00).
    { intros i' Hi'. unfold l1. rewrite nth_upd by (rewrite upd_length; lia).
      rewrite nth_upd by lia.
      destruct (Nat.eq_dec i' (n - j - 1)); [subst; rewrite !Nat.eqb_refl; reflexivity|].
      destruct (Nat.eq_dec i' j);
      repeat match goal with |- context[(?a =? ?b)%nat] => destruct (Nat.eqb_spec a b); try lia end; reflexivity. }
    rewrite (E (n - 1 - i)%nat) by lia. rewrite E by lia.
    destruct (Nat.eq_dec i j) as [e1|e1]; [|destruct (Nat.eq_dec i (n - j - 1)) as [e2|e2]].
    + replace ((S j <=? i) && (i <? S j + h) || (n - S j - h <=? i) && (i <? n - S j))%nat with false by lia.
      replace ((j <=? i) && (i <? j + S h) || (n - j - S h <=? i) && (i <? n - j))%nat with true by lia.
      replace (i =? n - j - 1)%nat with false by lia. replace (i =? j)%nat with true by lia. f_equal; lia.
    + replace ((S j <=? i) && (i <? S j + h) || (n - S j - h <=? i) && (i <? n - S j))%nat with false by lia.
      replace ((j <=? i) && (i <? j + S h) || (n - j - S h <=? i) && (i <? n - j))%nat with true by lia.
      replace (i =? n - j - 1)%nat with true by lia. f_equal; lia.
    + replace (n - 1 - i =? n - j - 1)%nat with false by lia. replace (n - 1 - i =? j)%nat with false by lia.
      replace (i =? n - j - 1)%nat with false by lia. replace (i =? j)%nat with false by lia.
      replace ((S j <=? i) && (i <? S j + h) || (n - S j - h <=? i) && (i <? n - S j))%nat
        with ((j <=? i) && (i <? j + S h) || (n - j - S h <=? i) && (i <? n - j))%nat by lia.
      reflexivity.
Qed.

Lemma nth_ext' (a b : bytes) : length a = length b ->
  (forall i, (i < length a)%nat -> nth i a x00 = nth i b x00) -> a = b.
Proof. intros. apply nth_ext with (d := x00) (d' := x00); auto. Qed.

Lemma swap_rev l w : length l = Z.to_nat w ->
  swap_loop l (Z.to_nat w) 0 (Z.to_nat (w / 2)) = rev l.
Proof.
  intros Hl. destruct (swap_loop_spec (Z.to_nat w) (Z.to_nat (w / 2)) l 0 Hl ltac:(lia)) as [Ha Hb].
  apply nth_ext'. { rewrite rev_length. lia. }
  intros i Hi. rewrite Ha in Hi. rewrite Hb by auto. rewrite rev_nth by lia.
  rewrite Hl.
  destruct ((0 <=? i) && (i <? 0 + Z.to_nat (w / 2)) || (Z.to_nat w - 0 - Z.to_nat (w / 2) <=? i) && (i <? Z.to_nat w - 0))%nat eqn:E.
  - f_equal. lia.
  - f_equal. lia.
Qed.

(* ------------------------------------------------------------- holds etc. *)
Lemma holds_len m addr w k vs j v : holds m addr w k vs -> nth_error vs j = Some v ->
  length v = Z.to_nat w.
Proof. intros H Hn. apply H in Hn. eapply load_length; eauto. Qed.

Lemma holds_cons m addr w k v vs : holds m addr w k (v :: vs) ->
  load m (addr k) (Z.to_nat w) = Some v /\ holds m addr w (k + 1) vs.
Proof.
  intros H. split.
  - specialize (H O v eq_refl). rewrite <- H. f_equal. f_equal. lia.
  - intros j x Hx. specialize (H (S j) x Hx). rewrite <- H. f_equal. f_equal. lia.
Qed.

Lemma holds_cons_intro m addr w k v vs : load m (addr k) (Z.to_nat w) = Some v ->
  holds m addr w (k + 1) vs -> holds m addr w k (v :: vs).
Proof.
  intros H1 H2 [|j] x Hx; simpl in Hx.
  - injection Hx as <-. rewrite <- H1. f_equal. f_equal. lia.
  - specialize (H2 j x Hx). rewrite <- H2. f_equal. f_equal. lia.
Qed.

Lemma disjoint_tail addr w k n : elems_disjoint addr w k (n + 1) -> elems_disjoint addr w (k + 1) n.
Proof. intros H i j Hi Hj. apply H; lia. Qed.

Lemma wrote_holds m m' addr w k vs : wrote m m' addr w k vs -> holds m' addr w k vs.
Proof. intros [H _]. exact H. Qed.

Lemma wrote_nil m addr w k : wrote m m addr w k [].
Proof. split; auto. intros [|j] v H; discriminate. Qed.

Lemma wrote_cons m m1 m' addr w k v vs : 0 <= w -> length v = Z.to_nat w ->
  store m (addr k) v = Some m1 -> wrote m1 m' addr w (k + 1) vs ->
  elems_disjoint addr w k (zlen vs + 1) -> wrote m m' addr w k (v :: vs).
Proof.
  intros Hw Hv Hs [H1 H2] Hd. pose proof (store_frame _ _ _ _ Hs) as S2. unfold zlen in S2.
  split.
  - apply holds_cons_intro.
    + transitivity (load m1 (addr k) (Z.to_nat w)).
      * apply load_ext. intros i Hi. apply H2. intros (j & Hj & Hx).
        destruct (Hd k j) as [?|?]; lia.
      * rewrite <- Hv. apply load_store_same with (m := m). exact Hs.
    + intros j x Hx. apply H1 in Hx. exact Hx.
  - intros x Hx. rewrite zlen_cons in Hx. rewrite H2.
    + apply S2. intros Hc. apply Hx. exists k. pose proof (zlen_nonneg vs). lia.
    + intros (j & Hj & Hxx). apply Hx. exists j. lia.
Qed.

Lemma wrote_over m m1 m2 addr w k vs us : length vs = length us ->
  wrote m m1 addr w k vs -> wrote m1 m2 addr w k us -> wrote m m2 addr w k us.
Proof.
  intros Hl [A1 A2] [B1 B2]. split; auto.
  intros x Hx. rewrite B2 by auto. apply A2. unfold zlen in *. rewrite Hl. auto.
Qed.

Lemma wrote_domain m m' addr w k vs : 0 <= w -> mapped m addr w k (zlen vs) ->
  wrote m m' addr w k vs -> forall x, (m' x = None <-> m x = None).
Proof.
  intros Hw Hm [A1 A2] x.
  assert (D : in_elems addr w k (zlen vs) x \/ ~ in_elems addr w k (zlen vs) x).
  { unfold in_elems. assert (Hn : forall n, (exists j, k <= j < k + Z.of_nat n /\ addr j <= x < addr j + w)
      \/ ~ (exists j, k <= j < k + Z.of_nat n /\ addr j <= x < addr j + w)).
    { induction n as [|n [IH|IH]].
      - right. intros (j & ? & _). lia.
      - left. destruct IH as (j & ? & ?). exists j. lia.
      - destruct (Z_le_dec (addr (k + Z.of_nat n)) x) as [E1|E1];
        [destruct (Z_lt_dec x (addr (k + Z.of_nat n) + w)) as [E2|E2]|].
        + left. exists (k + Z.of_nat n). lia.
        + right. intros (j & Hj & Hx). destruct (Z.eq_dec j (k + Z.of_nat n)); [subst; lia|].
          apply IH. exists j. lia.
        + right. intros (j & Hj & Hx). destruct (Z.eq_dec j (k + Z.of_nat n)); [subst; lia|].
          apply IH. exists j. lia. }
    apply Hn. }
  destruct D as [D|D].
  - split; intros E; exfalso.
    + destruct D as (j & Hj & Hx).
      destruct (nth_error vs (Z.to_nat (j - k))) as [v|] eqn:Ev.
      2:{ apply nth_error_None in Ev. unfold zlen in Hj. lia. }
      apply A1 in Ev. rewrite Z2Nat.id in Ev by lia. replace (k + (j - k)) with j in Ev by lia.
      apply (load_mapped _ _ _ _ Ev (Z.to_nat (x - addr j)) ltac:(lia)).
      rewrite <- E. f_equal. lia.
    + apply Hm in D. contradiction.
  - rewrite A2 by auto. tauto.
Qed.

Lemma holds_frame m m' addr w k vs :
  (forall x, in_elems addr w k (zlen vs) x -> m' x = m x) ->
  holds m addr w k vs -> holds m' addr w k vs.
Proof.
  intros H Hh j v Hv. rewrite <- (Hh j v Hv). apply load_ext. intros i Hi. apply H.
  exists (k + Z.of_nat j). unfold zlen.
  assert (j < length vs)%nat by (apply nth_error_Some; congruence). lia.
Qed.

Lemma holds_mapped m addr w k vs : holds m addr w k vs -> mapped m addr w k (zlen vs).
Proof.
  intros Hh x (j & Hj & Hx).
  destruct (nth_error vs (Z.to_nat (j - k))) as [v|] eqn:Ev.
  2:{ apply nth_error_None in Ev. unfold zlen in Hj. lia. }
  apply Hh in Ev. rewrite Z2Nat.id in Ev by lia. replace (k + (j - k)) with j in Ev by lia.
  pose proof (load_mapped _ _ _ _ Ev (Z.to_nat (x - addr j)) ltac:(lia)) as Hne.
  replace (addr j + Z.of_nat (Z.to_nat (x - addr j))) with x in Hne by lia. auto.
Qed.

(* ----------------------------------------------------------- byte_swap *)
Lemma byte_swap_loop_spec me a w vs : array_ok a -> 0 <= w ->
  forall m it k, iter_at me it a k -> 0 <= k -> k + zlen vs <= a_size a ->
  holds m (elem_addr a) w k vs -> elems_disjoint (elem_addr a) w k (zlen vs) ->
  exists m', byte_swap_loop m it w (length vs) = Ret m' /\
    wrote m m' (elem_addr a) w k (map (@rev byte) vs).
Proof.
  intros Ha Hw. induction vs as [|v vs IH]; intros m it k Hi Hk0 Hk Hh Hd.
  - exists m. split; auto. apply wrote_nil.
  - apply holds_cons in Hh. destruct Hh as [Hl Hh]. rewrite zlen_cons in *.
    pose proof (zlen_nonneg vs). pose proof (load_length _ _ _ _ Hl) as Hvl.
    cbn [byte_swap_loop length]. rewrite (iter_at_ptr me it a k) by (auto; lia).
    rewrite Hl. cbn [or_ub bind]. rewrite swap_rev by auto.
    destruct (store_some (rev v) m (elem_addr a k)) as [m1 Hm1].
    { intros i Hi'. rewrite rev_length in Hi'. eapply load_mapped; eauto. lia. }
    rewrite Hm1. cbn [or_ub bind].
    destruct (iter_advance_at me it a k Ha Hi) as (it' & -> & Hi'). cbn [bind].
    pose proof (store_frame _ _ _ _ Hm1) as S2. unfold zlen in S2. rewrite rev_length in *.
    destruct (IH m1 it' (k + 1)) as (m' & Hr & Hwr); auto; try lia.
    + apply holds_frame with (m := m); auto. intros x (j & Hj & Hx). apply S2.
      intros Hc. destruct (Hd k j); lia.
    + intros i j Hii Hjj. apply Hd; lia.
    + exists m'. split; auto. simpl map. eapply wrote_cons; eauto.
      * rewrite rev_length. auto.
      * unfold zlen. rewrite map_length. fold (zlen vs). replace (zlen vs + 1) with (1 + zlen vs) by lia. auto.
Qed.

Lemma rev_short (v : bytes) : (length v <= 1)%nat -> rev v = v.
Proof. destruct v as [|b [|c v]]; simpl; auto; lia. Qed.

Lemma byte_swap_spec me a vs m it k : array_ok a -> 0 <= itemsize me (a_dtype a) ->
  iter_at me it a k -> 0 <= k -> k + zlen vs <= a_size a ->
  holds m (elem_addr a) (itemsize me (a_dtype a)) k vs ->
  elems_disjoint (elem_addr a) (itemsize me (a_dtype a)) k (zlen vs) ->
  exists m', byte_swap me m it (length vs) = Ret m' /\
    wrote m m' (elem_addr a) (itemsize me (a_dtype a)) k (map (@rev byte) vs).
Proof.
  intros Ha Hw Hi Hk0 Hk Hh Hd. unfold byte_swap. rewrite (ia_arr _ _ _ _ Hi).
  destruct (itemsize me (a_dtype a) =? 1) eqn:E.
  - exists m. split; auto. split; auto. intros j v Hv.
    rewrite nth_error_map in Hv. destruct (nth_error vs j) as [u|] eqn:Eu; [|discriminate].
    injection Hv as <-. rewrite rev_short. { apply Hh; auto. }
    rewrite (holds_len _ _ _ _ _ _ _ Hh Eu). lia.
  - eapply byte_swap_loop_spec; eauto.
Qed.

(* ----------------------------------------------------------- copy_loop *)
Lemma copy_loop_spec me da sa f sw dw vs : array_ok da -> array_ok sa -> 0 <= dw ->
  forall outs dm di sm si kd ks,
  iter_at me di da kd -> iter_at me si sa ks -> 0 <= kd -> 0 <= ks ->
  kd + zlen vs <= a_size da -> ks + zlen vs <= a_size sa ->
  holds sm (elem_addr sa) sw ks vs ->
  Forall2 (fun v o => f v = Ret o /\ length o = Z.to_nat dw) vs outs ->
  mapped dm (elem_addr da) dw kd (zlen vs) ->
  elems_disjoint (elem_addr da) dw kd (zlen vs) ->
  exists dm' di' si', copy_loop f (Z.to_nat sw) dm di sm si (length vs) = Ret (dm', di', si') /\
    iter_at me di' da (kd + zlen vs) /\ iter_at me si' sa (ks + zlen vs) /\
    wrote dm dm' (elem_addr da) dw kd outs.
Proof.
  intros Hda Hsa Hdw. induction vs as [|v vs IH];
    intros outs dm di sm si kd ks Hdi Hsi Hkd Hks Hkd2 Hks2 Hh Hf Hm Hd.
  - inversion Hf; subst. exists dm, di, si. cbn [copy_loop length].
    replace (kd + zlen []) with kd by (unfold zlen; simpl; lia).
    replace (ks + zlen []) with ks by (unfold zlen; simpl; lia).
    repeat split; auto; try apply Hdi; try apply Hsi; apply wrote_nil.
  - inversion Hf as [|? o ? outs' [Hfv Hol] Hf']; subst.
    apply holds_cons in Hh. destruct Hh as [Hl Hh]. rewrite zlen_cons in *.
    pose proof (zlen_nonneg vs).
    cbn [copy_loop length]. rewrite (iter_at_ptr me si sa ks) by (auto; lia).
    rewrite Hl. cbn [or_ub bind]. rewrite Hfv. cbn [bind].
    rewrite (iter_at_ptr me di da kd) by (auto; lia).
    destruct (store_some o dm (elem_addr da kd)) as [dm1 Hm1].
    { intros i Hi'. apply Hm. exists kd. lia. }
    rewrite Hm1. cbn [or_ub bind].
    destruct (iter_advance_at me di da kd Hda Hdi) as (di1 & -> & Hdi1). cbn [bind].
    destruct (iter_advance_at me si sa ks Hsa Hsi) as (si1 & -> & Hsi1). cbn [bind].
    destruct (IH outs' dm1 di1 sm si1 (kd + 1) (ks + 1)) as (dm' & di' & si' & E & A & B & C); auto; try lia.
    + intros x (j & Hj & Hx) Hc. apply (proj2 (store_domain _ _ _ _ Hm1 x)) in Hc.
      apply (Hm x); auto. exists j. lia.
    + intros i j Hii Hjj. apply Hd; lia.
    + exists dm', di', si'. split; auto.
      replace (kd + (1 + zlen vs)) with (kd + 1 + zlen vs) by lia.
      replace (ks + (1 + zlen vs)) with (ks + 1 + zlen vs) by lia.
      repeat split; auto; try apply A; try apply B.
      * eapply wrote_cons; eauto. unfold zlen. rewrite <- (Forall2_length Hf'). fold (zlen vs).
        replace (zlen vs + 1) with (1 + zlen vs) by lia. auto.
      * assert (W : wrote dm dm' (elem_addr da) dw kd (o :: outs')).
        { eapply wrote_cons; eauto. unfold zlen. rewrite <- (Forall2_length Hf'). fold (zlen vs).
          replace (zlen vs + 1) with (1 + zlen vs) by lia. auto. }
        apply W.
Qed.

(* -------------------------------------------------------------- memcpy *)
Lemma store_app l1 : forall m a l2,
  store m a (l1 ++ l2) =
  match store m a l1 with Some m1 => store m1 (a + zlen l1) l2 | None => None end.
Proof.
  induction l1 as [|b l1 IH]; intros m a l2; simpl.
  - replace (a + zlen []) with a by (unfold zlen; simpl; lia). reflexivity.
  - destruct (m a); auto. rewrite IH. rewrite zlen_cons.
    replace (a + (1 + zlen l1)) with (a + 1 + zlen l1) by lia. reflexivity.
Qed.

Lemma concat_load m addr w base vs : forall k, 0 <= w ->
  (forall j, k <= j < k + zlen vs -> addr j = base + j * w) ->
  holds m addr w k vs ->
  load m (base + k * w) (Z.to_nat (zlen vs * w)) = Some (concat vs).
Proof.
  induction vs as [|v vs IH]; intros k Hw Ha Hh.
  - reflexivity.
  - apply holds_cons in Hh. destruct Hh as [Hl Hh]. rewrite zlen_cons in *. pose proof (zlen_nonneg vs).
    replace (Z.to_nat ((1 + zlen vs) * w)) with (Z.to_nat w + Z.to_nat (zlen vs * w))%nat by nia.
    simpl concat. apply load_app.
    + rewrite <- (Ha k) by lia. auto.
    + replace (base + k * w + Z.of_nat (Z.to_nat w)) with (base + (k + 1) * w) by lia.
      apply IH; auto. intros j Hj. apply Ha. lia.
Qed.

Lemma concat_store addr w base vs : forall m k, 0 <= w ->
  (forall j, k <= j < k + zlen vs -> addr j = base + j * w) ->
  Forall (fun v => length v = Z.to_nat w) vs ->
  mapped m addr w k (zlen vs) ->
  exists m', store m (base + k * w) (concat vs) = Some m' /\ wrote m m' addr w k vs.
Proof.
  induction vs as [|v vs IH]; intros m k Hw Ha Hl Hm.
  - exists m. split; auto. apply wrote_nil.
  - inversion Hl; subst. rewrite zlen_cons in *. pose proof (zlen_nonneg vs).
    simpl concat. rewrite store_app.
    destruct (store_some v m (base + k * w)) as [m1 Hm1].
    { intros i Hi. apply Hm. exists k. rewrite Ha by lia. lia. }
    rewrite Hm1.
    replace (base + k * w + zlen v) with (base + (k + 1) * w) by (unfold zlen; lia).
    destruct (IH m1 (k + 1)) as (m' & E & W); auto.
    + intros j Hj. apply Ha. lia.
    + intros x (j & Hj & Hx) Hc. apply (proj2 (store_domain _ _ _ _ Hm1 x)) in Hc.
      apply (Hm x); auto. exists j. lia.
    + exists m'. split; auto. apply wrote_cons with (m1 := m1); auto.
      * rewrite Ha by lia. auto.
      * intros i j Hi Hj. rewrite !Ha by lia. nia.
Qed.

(* ------------------------------------------------------------- dtypes *)
Lemma dt_itemsize me d : dt_ok me d -> itemsize me d = atoi (skipn 1 (suffix d)).
Proof.
  intros [Hn _]. unfold itemsize, suffix. rewrite Hn. destruct d as [|c [|k d]]; reflexivity.
Qed.

Lemma dt_same_width me d s : dt_ok me d -> dt_ok me s -> suffix d = suffix s ->
  itemsize me d = itemsize me s.
Proof. intros Hd Hs E. rewrite !dt_itemsize, E by auto. reflexivity. Qed.

Lemma sty_of_size d t : sty_of d = Some t -> atoi (skipn 1 d) = Z.of_nat (sty_size t).
Proof.
  unfold sty_of. intros H.
  repeat match type of H with
  | (if bytes_eqb d ?l then _ else _) = _ =>
      let E := fresh "E" in destruct (bytes_eqb d l) eqn:E; [apply bytes_eqb_eq in E; subst; injection H as <-; reflexivity|]
  end. discriminate.
Qed.

Lemma cast_table_width me d s sw dw f : cast_table me d s = Some (sw, dw, f) ->
  atoi (skipn 1 s) = Z.of_nat sw /\ atoi (skipn 1 d) = Z.of_nat dw.
Proof.
  unfold cast_table. intros H.
  destruct (bytes_eqb d (lit "c8")) eqn:E1.
  { destruct (bytes_eqb s (lit "c16")) eqn:E2; [|discriminate].
    apply bytes_eqb_eq in E1. apply bytes_eqb_eq in E2. subst. injection H as <- <- _. split; reflexivity. }
  destruct (bytes_eqb d (lit "c16")) eqn:E3.
  { destruct (bytes_eqb s (lit "c8")) eqn:E2; [|discriminate].
    apply bytes_eqb_eq in E3. apply bytes_eqb_eq in E2. subst. injection H as <- <- _. split; reflexivity. }
  destruct (sty_of d) as [td|] eqn:Ed; [|discriminate].
  destruct (sty_of s) as [ts|] eqn:Es; [|destruct td; discriminate].
  assert (H' : (sty_size ts, sty_size td) = (sw, dw)) by (destruct td; congruence).
  injection H' as <- <-. split; apply sty_of_size; auto.
Qed.

Lemma nat_enc_length me n z : length (nat_enc me n z) = n.
Proof. unfold nat_enc. destruct me; rewrite ?rev_length; apply le_enc_length. Qed.

Lemma scalar_cast_length me d s l o : scalar_cast me d s l = Ret o -> length o = sty_size d.
Proof.
  unfold scalar_cast. destruct (scalar_bits d s (nat_val me l)); cbn [bind]; intros H; try discriminate.
  injection H as <-. apply nat_enc_length.
Qed.

Lemma cast_table_out me d s sw dw f l o : cast_table me d s = Some (sw, dw, f) -> f l = Ret o ->
  length o = dw.
Proof.
  unfold cast_table. intros H Hf.
  assert (C : forall td ts, cplx_cast me td ts l = Ret o -> length o = (2 * sty_size td)%nat).
  { intros td ts. unfold cplx_cast.
    destruct (scalar_cast me td ts (firstn _ l)) eqn:E1; cbn [bind]; try discriminate.
    destruct (scalar_cast me td ts (skipn _ l)) eqn:E2; cbn [bind]; try discriminate.
    apply scalar_cast_length in E1. apply scalar_cast_length in E2.
    intros Hx. injection Hx as <-. rewrite app_length. lia. }
  destruct (bytes_eqb d (lit "c8")) eqn:E1.
  { destruct (bytes_eqb s (lit "c16")) eqn:E2; [|discriminate].
    injection H as <- <- <-. apply C in Hf. exact Hf. }
  destruct (bytes_eqb d (lit "c16")) eqn:E3.
  { destruct (bytes_eqb s (lit "c8")) eqn:E2; [|discriminate].
    injection H as <- <- <-. apply C in Hf. exact Hf. }
  destruct (sty_of d) as [td|] eqn:Ed; [|discriminate].
  destruct (sty_of s) as [ts|] eqn:Es; [|destruct td; discriminate].
  destruct td; try discriminate; injection H as <- <- <-; apply scalar_cast_length in Hf; exact Hf.
Qed.

Lemma reorder_length me d v : length (reorder me d v) = length v.
Proof. unfold reorder. destruct (dt_native me d); rewrite ?rev_length; auto. Qed.

Lemma reorder_invol me d v : reorder me d (reorder me d v) = v.
Proof. unfold reorder. destruct (dt_native me d); auto using rev_involutive. Qed.

Lemma converts_length me sd dd v r : dt_ok me sd -> dt_ok me dd ->
  length v = Z.to_nat (itemsize me sd) -> converts me sd dd v r ->
  length r = Z.to_nat (itemsize me dd).
Proof.
  unfold converts, conv_elem. intros Hs Hd Hv H.
  destruct (bytes_eqb (suffix dd) (suffix sd)) eqn:E.
  - injection H as <-. rewrite !reorder_length. apply bytes_eqb_eq in E.
    rewrite Hv. f_equal. symmetry. apply dt_same_width; auto.
  - destruct (cast_table me (suffix dd) (suffix sd)) as [[[sw dw] f]|] eqn:Ec; [|discriminate].
    destruct (f (reorder me sd v)) eqn:Ef; try discriminate. injection H as <-.
    rewrite reorder_length. rewrite (cast_table_out _ _ _ _ _ _ _ _ Ec Ef).
    apply cast_table_width in Ec. rewrite dt_itemsize by auto. lia.
Qed.

(* ------------------------------------------------------------ conversion *)
(* State of the source memory after _dtype_convert. *)
Definition src_after (me : endian) (sm sm' : mem) (sa : array) (k : Z) (vs : list bytes) : Prop :=
  if dt_native me (a_dtype sa) then sm' = sm
  else wrote sm sm' (elem_addr sa) (itemsize me (a_dtype sa)) k (map (@rev byte) vs).

Lemma src_swapped me sm si sa ks vs : array_ok sa -> dt_ok me (a_dtype sa) ->
  iter_at me si sa ks -> 0 <= ks -> ks + zlen vs <= a_size sa ->
  holds sm (elem_addr sa) (itemsize me (a_dtype sa)) ks vs ->
  (dt_native me (a_dtype sa) = false ->
     elems_disjoint (elem_addr sa) (itemsize me (a_dtype sa)) ks (zlen vs)) ->
  exists sm1,
    (if native me (it_arr si) then Ret sm else byte_swap me sm si (length vs)) = Ret sm1 /\
    src_after me sm sm1 sa ks vs /\
    holds sm1 (elem_addr sa) (itemsize me (a_dtype sa)) ks (map (reorder me (a_dtype sa)) vs).
Proof.
  intros Ha [Hn Hw] Hi Hk0 Hk Hh Hd. rewrite (ia_arr _ _ _ _ Hi).
  change (native me sa) with (dt_native me (a_dtype sa)). unfold src_after, reorder.
  destruct (dt_native me (a_dtype sa)) eqn:E.
  - exists sm. rewrite map_id. auto.
  - destruct (byte_swap_spec me sa vs sm si ks) as (m' & E1 & W); auto; try lia.
    exists m'. split; auto. split; auto. exact (proj1 W).
Qed.

Lemma Forall2_map_l {A B C} (g : A -> B) (P : B -> C -> Prop) l : forall l',
  Forall2 (fun x y => P (g x) y) l l' -> Forall2 P (map g l) l'.
Proof. induction l; intros l' H; inversion H; subst; simpl; constructor; auto. Qed.

Lemma Forall2_impl' {A B} (P Q : A -> B -> Prop) l l' :
  (forall x y, In x l -> P x y -> Q x y) -> Forall2 P l l' -> Forall2 Q l l'.
Proof.
  intros H HF. induction HF; constructor.
  - apply H; simpl; auto.
  - apply IHHF. intros. apply H; simpl; auto.
Qed.

Lemma holds_Forall m addr w k vs : holds m addr w k vs -> Forall (fun v => length v = Z.to_nat w) vs.
Proof.
  intros H. apply Forall_forall. intros v Hv. apply In_nth_error in Hv. destruct Hv as [j Hj].
  eapply holds_len; eauto.
Qed.

Lemma Forall2_exists_map {A B C} (P : A -> C -> Prop) (g : B -> C) (Q : A -> B -> Prop) l l' :
  (forall x y, P x y -> exists z, Q x z /\ y = g z) ->
  Forall2 P l l' -> exists l'', Forall2 Q l l'' /\ l' = map g l''.
Proof.
  intros H HF. induction HF.
  - exists []. split; constructor.
  - destruct IHHF as (l'' & HQ & ->). destruct (H _ _ H0) as (z & Hz & ->).
    exists (z :: l''). split; constructor; auto.
Qed.

Lemma cast_spec me dm di da sm si sa kd ks vs outs :
  array_ok da -> array_ok sa -> dt_ok me (a_dtype da) -> dt_ok me (a_dtype sa) ->
  iter_at me di da kd -> iter_at me si sa ks -> 0 <= kd -> 0 <= ks ->
  kd + zlen vs <= a_size da -> ks + zlen vs <= a_size sa ->
  holds sm (elem_addr sa) (itemsize me (a_dtype sa)) ks (map (reorder me (a_dtype sa)) vs) ->
  Forall2 (converts me (a_dtype sa) (a_dtype da)) vs outs ->
  mapped dm (elem_addr da) (itemsize me (a_dtype da)) kd (zlen vs) ->
  elems_disjoint (elem_addr da) (itemsize me (a_dtype da)) kd (zlen vs) ->
  convertible me (a_dtype sa) (a_dtype da) ->
  exists dm' di' si', cast me dm di sm si (length vs) = Ret (Some (dm', di', si')) /\
    iter_at me di' da (kd + zlen vs) /\ iter_at me si' sa (ks + zlen vs) /\
    wrote dm dm' (elem_addr da) (itemsize me (a_dtype da)) kd (map (reorder me (a_dtype da)) outs).
Proof.
  intros Hda Hsa Hdd Hds Hdi Hsi Hkd Hks Hkd2 Hks2 Hh Hf Hm Hd Hc.
  unfold cast. rewrite (ia_arr _ _ _ _ Hdi), (ia_arr _ _ _ _ Hsi).
  set (dw := itemsize me (a_dtype da)) in *. set (sw := itemsize me (a_dtype sa)) in *.
  assert (Hdw : 0 < dw) by apply Hdd. assert (Hsw : 0 < sw) by apply Hds.
  assert (Hzl : zlen (map (reorder me (a_dtype sa)) vs) = zlen vs) by (unfold zlen; rewrite map_length; auto).
  pose proof (zlen_nonneg vs) as Hnn.
  assert (Hlen : length (map (reorder me (a_dtype sa)) vs) = length vs) by apply map_length.
  pose proof (Forall2_length Hf) as Hlo.
  unfold converts, conv_elem in Hf.
  destruct (bytes_eqb (suffix (a_dtype da)) (suffix (a_dtype sa))) eqn:E.
  - apply bytes_eqb_eq in E.
    assert (Hww : dw = sw) by (apply dt_same_width; auto).
    assert (Houts : map (reorder me (a_dtype da)) outs = map (reorder me (a_dtype sa)) vs).
    { clear - Hf. induction Hf; simpl; auto. injection H as <-. rewrite reorder_invol. f_equal; auto. }
    rewrite Houts.
    rewrite (ia_contig _ _ _ _ Hdi), (ia_contig _ _ _ _ Hsi).
    destruct (contig_of me da && contig_of me sa) eqn:Ec.
    + apply andb_true_iff in Ec. destruct Ec as [Ecd Ecs].
      rewrite (contig_last_stride me da), (contig_last_stride me sa) by auto. cbn [or_ub bind].
      unfold elsize_of. fold dw. fold sw.
      replace (Z.of_nat (length vs) * dw <? 0) with false by nia.
      rewrite (ia_ptr_c _ _ _ _ Hsi Ecs), (ia_ptr_c _ _ _ _ Hdi Ecd). unfold elsize_of. fold dw. fold sw.
      replace (Z.to_nat (Z.of_nat (length vs) * dw)) with
        (Z.to_nat (zlen (map (reorder me (a_dtype sa)) vs) * sw)) by (rewrite Hzl, Hww; reflexivity).
      rewrite (concat_load sm (elem_addr sa) sw (a_data sa)); auto; try lia.
      2:{ intros j Hj. rewrite Hzl in Hj. rewrite elem_addr_contig with (me := me) by (auto; lia). reflexivity. }
      cbn [or_ub bind].
      destruct (concat_store (elem_addr da) dw (a_data da) (map (reorder me (a_dtype sa)) vs) dm kd) as (dm' & Es & W); try lia.
      { intros j Hj. rewrite Hzl in Hj. rewrite elem_addr_contig with (me := me) by (auto; lia). reflexivity. }
      { rewrite Hww. eapply holds_Forall; eauto. }
      { rewrite Hzl. auto. }
      rewrite Es. cbn [or_ub bind].
      eexists dm', _, _. split; [reflexivity|]. split; [|split; [|exact W]].
      * pose proof (iter_at_shift me di da kd (zlen vs) Ecd Hdi) as Hx.
        rewrite (ia_ptr_c _ _ _ _ Hdi Ecd), (ia_arr _ _ _ _ Hdi), (ia_contig _ _ _ _ Hdi) in Hx.
        exact Hx.
      * pose proof (iter_at_shift me si sa ks (zlen vs) Ecs Hsi) as Hx.
        rewrite (ia_ptr_c _ _ _ _ Hsi Ecs), (ia_arr _ _ _ _ Hsi), (ia_contig _ _ _ _ Hsi) in Hx.
        exact Hx.
    + replace ((dw <? 0) && negb (Nat.eqb (length vs) 0)) with false by lia.
      rewrite <- Hlen.
      destruct (copy_loop_spec me da sa Ret sw dw (map (reorder me (a_dtype sa)) vs) Hda Hsa ltac:(lia)
         (map (reorder me (a_dtype sa)) vs) dm di sm si kd ks) as (dm' & di' & si' & E1 & A & B & W);
        auto; try lia; try (rewrite Hzl; auto; fail).
      { assert (Hall := holds_Forall _ _ _ _ _ Hh). clear - Hall Hww.
        induction Hall; constructor; auto. split; auto. rewrite Hww. auto. }
      rewrite Hzl in A, B. replace (Z.to_nat dw) with (Z.to_nat sw) by (rewrite Hww; reflexivity). rewrite E1. cbn [bind].
      exists dm', di', si'. auto.
  - destruct (cast_table me (suffix (a_dtype da)) (suffix (a_dtype sa))) as [[[sw0 dw0] f]|] eqn:Ec.
    2:{ exfalso. destruct Hc as [Hc|Hc]; [|congruence]. apply bytes_eqb_neq in E. congruence. }
    pose proof (cast_table_width _ _ _ _ _ _ Ec) as [Hw1 Hw2].
    rewrite <- dt_itemsize with (me := me) in Hw1, Hw2 by auto. fold sw in Hw1. fold dw in Hw2.
    assert (Hsw0 : sw0 = Z.to_nat sw) by lia. rewrite Hsw0. rewrite <- Hlen.
    destruct (copy_loop_spec me da sa f sw dw (map (reorder me (a_dtype sa)) vs) Hda Hsa ltac:(lia)
         (map (reorder me (a_dtype da)) outs) dm di sm si kd ks) as (dm' & di' & si' & E1 & A & B & W);
        auto; try lia; try (rewrite Hzl; auto; fail).
    { apply Forall2_map_l. 
      assert (HF : Forall2 (fun v o => f (reorder me (a_dtype sa) v) = Ret (reorder me (a_dtype da) o)
                /\ length (reorder me (a_dtype da) o) = Z.to_nat dw) vs outs).
      { eapply Forall2_impl'; [|exact Hf]. cbv beta. intros v o _ Hvo.
        destruct (f (reorder me (a_dtype sa) v)) eqn:Ef; try discriminate. injection Hvo as <-.
        rewrite reorder_invol. split; auto. rewrite (cast_table_out _ _ _ _ _ _ _ _ Ec Ef). lia. }
      clear - HF. induction HF; simpl; constructor; auto. }
    rewrite Hzl in A, B. rewrite E1. cbn [bind].
    exists dm', di', si'. auto.
Qed.

Lemma convert_spec me dm di da sm si sa kd ks vs outs :
  array_ok da -> array_ok sa -> dt_ok me (a_dtype da) -> dt_ok me (a_dtype sa) ->
  iter_at me di da kd -> iter_at me si sa ks -> 0 <= kd -> 0 <= ks ->
  kd + zlen vs <= a_size da -> ks + zlen vs <= a_size sa ->
  holds sm (elem_addr sa) (itemsize me (a_dtype sa)) ks vs ->
  Forall2 (converts me (a_dtype sa) (a_dtype da)) vs outs ->
  mapped dm (elem_addr da) (itemsize me (a_dtype da)) kd (zlen vs) ->
  elems_disjoint (elem_addr da) (itemsize me (a_dtype da)) kd (zlen vs) ->
  (dt_native me (a_dtype sa) = false ->
     elems_disjoint (elem_addr sa) (itemsize me (a_dtype sa)) ks (zlen vs)) ->
  convertible me (a_dtype sa) (a_dtype da) ->
  exists dm' di' sm' si', dtype_convert me dm di sm si (length vs) = Ret (0, dm', di', sm', si') /\
    iter_at me di' da (kd + zlen vs) /\ iter_at me si' sa (ks + zlen vs) /\
    wrote dm dm' (elem_addr da) (itemsize me (a_dtype da)) kd outs /\
    src_after me sm sm' sa ks vs.
Proof.
  intros Hda Hsa Hdd Hds Hdi Hsi Hkd Hks Hkd2 Hks2 Hh Hf Hm Hd Hsd Hc.
  unfold dtype_convert.
  destruct (src_swapped me sm si sa ks vs) as (sm1 & E1 & Hsm & Hh1); auto.
  rewrite E1. cbn [bind].
  destruct (cast_spec me dm di da sm1 si sa kd ks vs outs) as (dm1 & di1 & si1 & E2 & A & B & W); auto.
  rewrite E2. cbn [bind]. rewrite (ia_arr _ _ _ _ Hdi).
  change (native me da) with (dt_native me (a_dtype da)).
  assert (Hlo : length vs = length outs) by (eapply Forall2_length; eauto).
  destruct (dt_native me (a_dtype da)) eqn:En.
  - cbn [bind]. exists dm1, di1, sm1, si1. repeat split; auto; try apply A; try apply B.
    + unfold reorder in W. rewrite En, map_id in W. apply W.
    + unfold reorder in W. rewrite En, map_id in W. apply W.
  - assert (Hlm : length (map (reorder me (a_dtype da)) outs) = length vs) by (rewrite map_length; auto).
    destruct (byte_swap_spec me da (map (reorder me (a_dtype da)) outs) dm1 di kd) as (dm2 & E3 & W2); auto.
    { destruct Hdd; lia. }
    { unfold zlen in *. rewrite Hlm. auto. }
    { apply wrote_holds in W. auto. }
    { unfold zlen in *. rewrite Hlm. auto. }
    rewrite Hlm in E3. rewrite E3. cbn [bind].
    exists dm2, di1, sm1, si1.
    assert (Hrr : map (@rev byte) (map (reorder me (a_dtype da)) outs) = outs).
    { rewrite map_map. rewrite <- (map_id outs) at 2. apply map_ext. intros v.
      unfold reorder. rewrite En. apply rev_involutive. }
    rewrite Hrr in W2.
    assert (W3 := wrote_over _ _ _ _ _ _ _ _ (map_length _ _) W W2).
    repeat split; auto; try apply A; try apply B; apply W3.
Qed.

(* An unsupported pair of types is refused; the destination is untouched. *)
Lemma convert_unsupported me dm di da sm si sa kd ks vs :
  array_ok da -> array_ok sa -> dt_ok me (a_dtype sa) ->
  iter_at me di da kd -> iter_at me si sa ks -> 0 <= ks ->
  ks + zlen vs <= a_size sa ->
  holds sm (elem_addr sa) (itemsize me (a_dtype sa)) ks vs ->
  (dt_native me (a_dtype sa) = false ->
     elems_disjoint (elem_addr sa) (itemsize me (a_dtype sa)) ks (zlen vs)) ->
  ~ convertible me (a_dtype sa) (a_dtype da) ->
  exists sm', dtype_convert me dm di sm si (length vs) = Ret (-1, dm, di, sm', si) /\
    src_after me sm sm' sa ks vs.
Proof.
  intros Hda Hsa Hds Hdi Hsi Hks Hks2 Hh Hsd Hc.
  unfold dtype_convert.
  destruct (src_swapped me sm si sa ks vs) as (sm1 & E1 & Hsm & Hh1); auto.
  rewrite E1. cbn [bind]. unfold cast. rewrite (ia_arr _ _ _ _ Hdi), (ia_arr _ _ _ _ Hsi).
  destruct (bytes_eqb (suffix (a_dtype da)) (suffix (a_dtype sa))) eqn:E.
  { exfalso. apply Hc. left. apply bytes_eqb_eq. auto. }
  destruct (cast_table me (suffix (a_dtype da)) (suffix (a_dtype sa))) eqn:Ec.
  { exfalso. apply Hc. right. congruence. }
  cbn [bind]. exists sm1. auto.
Qed.
