(* Proofs about array iteration and element conversion. *)
From Coq.Strings Require Import Byte String.
From Coq Require Import List ZArith Lia Bool ZifyBool ZifyNat.
From Verif Require Import Base BaseFacts Dtype Cast Array FS Block Spec.
Import ListNotations.
Open Scope Z_scope.
Ltac Zify.zify_post_hook ::= Z.div_mod_to_equations.

(* ------------------------------------------------- digits, last dim first *)
Fixpoint rdig (rdims : list Z) (k : Z) : list Z :=
  match rdims with
  | [] => []
  | d :: r => k mod d :: rdig r (k / d)
  end.

Lemma rdig_length rd : forall k, length (rdig rd k) = length rd.
Proof. induction rd; simpl; intros; auto. Qed.

Lemma zprod_pos l : Forall (fun d => 0 < d) l -> 0 < zprod l.
Proof. unfold zprod. induction 1; simpl; nia. Qed.
Lemma zprod_app a b : zprod (a ++ b) = zprod a * zprod b.
Proof. unfold zprod. induction a as [|x a IH]; cbn [fold_right app]; [ring|]. rewrite IH. ring. Qed.
Lemma zprod_cons x l : zprod (x :: l) = x * zprod l.
Proof. reflexivity. Qed.
Lemma zprod_nil : zprod [] = 1.
Proof. reflexivity. Qed.
Arguments zprod : simpl never.

Lemma zprod_rev r : zprod (rev r) = zprod r.
Proof.
  induction r; simpl; auto. rewrite zprod_app, !zprod_cons, zprod_nil, IHr. lia.
Qed.

Lemma rdig_app a : forall b k, Forall (fun d => 0 < d) a ->
  rdig (a ++ b) k = rdig a k ++ rdig b (k / zprod a).
Proof.
  induction a as [|d a IH]; intros b k H; simpl.
  - rewrite zprod_nil, Z.div_1_r. reflexivity.
  - inversion H; subst. rewrite IH by auto. rewrite zprod_cons.
    rewrite Z.div_div by (try apply zprod_pos; auto; lia). reflexivity.
Qed.

Lemma rdig_mod rd : forall k p, Forall (fun d => 0 < d) rd -> 0 < p -> (zprod rd | p) ->
  rdig rd (k mod p) = rdig rd k.
Proof.
  induction rd as [|d rd IH]; intros k p H Hp Hd; simpl; auto.
  inversion H; subst. rewrite zprod_cons in Hd. destruct Hd as [q Hq].
  pose proof (zprod_pos rd H3).
  assert (E1 : (k mod p) mod d = k mod d).
  { assert (Hpq : p = d * (zprod rd * q)) by nia.
    symmetry. rewrite (Z.div_mod k p) at 1 by lia. rewrite Hpq at 1.
    replace (d * (zprod rd * q) * (k / p) + k mod p) with (k mod p + (zprod rd * q * (k / p)) * d) by ring.
    apply Z.mod_add. lia. }
  assert (Hq0 : 0 < q) by nia.
  assert (E2 : (k mod p) / d = (k / d) mod (zprod rd * q)).
  { assert (Hpq : p = d * (zprod rd * q)) by nia.
    rewrite Hpq. rewrite Z.rem_mul_r by nia.
    rewrite (Z.mul_comm d). rewrite Z.div_add by lia.
    rewrite Z.div_small by (apply Z.mod_pos_bound; lia). lia. }
  rewrite E1, E2. f_equal. apply IH; auto; try nia. exists q. lia.
Qed.

(* reversed digits are the row-major index *)
Lemma rdig_row_major dims : forall k, Forall (fun d => 0 < d) dims -> 0 <= k < zprod dims ->
  rev (rdig (rev dims) k) = row_major dims k.
Proof.
  induction dims as [|d r IH]; intros k H Hk; simpl; auto.
  inversion H; subst. rewrite zprod_cons in Hk. pose proof (zprod_pos r H3).
  assert (Hrev : Forall (fun d => 0 < d) (rev r)) by (apply Forall_rev; auto).
  assert (Hzr : zprod (rev r) = zprod r).
  { apply zprod_rev. }
  rewrite rdig_app by auto. simpl. rewrite rev_app_distr. simpl. rewrite Hzr.
  f_equal.
  - apply Z.mod_small. split. { apply Z.div_pos; lia. } apply Z.div_lt_upper_bound; nia.
  - rewrite <- IH by (auto; apply Z.mod_pos_bound; lia).
    f_equal. symmetry. apply rdig_mod; auto. rewrite Hzr. exists 1. lia.
Qed.

Lemma dot_app a1 a2 : forall b1 b2, length a1 = length a2 ->
  dot (a1 ++ b1) (a2 ++ b2) = dot a1 a2 + dot b1 b2.
Proof.
  revert a2. induction a1 as [|x a1 IH]; intros [|y a2] b1 b2 H; simpl in *; try lia.
  rewrite IH by lia. lia.
Qed.
Lemma dot_rev a : forall b, length a = length b -> dot (rev a) (rev b) = dot a b.
Proof.
  induction a as [|x a IH]; intros [|y b] H; simpl in *; try lia.
  rewrite dot_app by (rewrite !rev_length; lia). simpl. rewrite IH by lia. lia.
Qed.

(* ------------------------------------------------------------- the carry *)
Lemma carry_spec rd : forall rs k base s, Forall (fun d => 0 < d) rd ->
  length rs = length rd -> hd_error rs = Some s -> 
  forall p rp, rdig rd k = p :: rp ->
  carry ((p + 1) :: rp) rd rs (base + dot (rdig rd k) rs + s)
  = (rdig rd (k + 1), base + dot (rdig rd (k + 1)) rs).
Proof.
  induction rd as [|d rd IH]; intros rs k base s Hpos Hlen Hs p rp Hp; simpl in Hp; [discriminate|].
  destruct rs as [|s0 rs]; [discriminate|]. simpl in Hs. injection Hs as ->.
  injection Hp as Hp1 Hp2. inversion Hpos; subst.
  assert (Hm : 0 <= k mod d < d) by (apply Z.mod_pos_bound; lia).
  cbn [carry]. destruct (k mod d + 1 =? d) eqn:E.
  - assert (E1 : (k + 1) mod d = 0).
    { rewrite <- Zplus_mod_idemp_l. replace (k mod d + 1) with d by lia. apply Z.mod_same. lia. }
    assert (E2 : (k + 1) / d = k / d + 1).
    { symmetry. apply Z.div_unique with (r := 0); [lia|].
      pose proof (Z.div_mod k d ltac:(lia)). nia. }
    destruct rd as [|d' rd'].
    + destruct rs; [|discriminate]. simpl. rewrite E1. f_equal. lia.
    + destruct rs as [|s' rs']; [discriminate|].
      remember (rdig (d' :: rd') (k / d)) as rp eqn:Erp.
      destruct rp as [|p' rp']; [simpl in Erp; discriminate|].
      simpl in Hlen.
      specialize (IH (s' :: rs') (k / d) base s' H2 ltac:(simpl; lia) eq_refl p' rp' (eq_sym Erp)).
      rewrite <- Erp in IH.
      replace (base + dot (rdig (d :: d' :: rd') k) (s :: s' :: rs') + s - s * (k mod d + 1) + s')
        with (base + dot (p' :: rp') (s' :: rs') + s').
      2:{ change (rdig (d :: d' :: rd') k) with (k mod d :: rdig (d' :: rd') (k / d)).
          rewrite <- Erp. cbn [dot]. lia. }
      rewrite IH.
      change (rdig (d :: d' :: rd') (k + 1)) with ((k + 1) mod d :: rdig (d' :: rd') ((k + 1) / d)).
      rewrite E1, E2. f_equal. 
  - assert (E1 : (k + 1) mod d = k mod d + 1).
    { rewrite <- Zplus_mod_idemp_l. apply Z.mod_small. lia. }
    assert (E2 : (k + 1) / d = k / d).
    { symmetry. apply Z.div_unique with (r := k mod d + 1); [lia|].
      pose proof (Z.div_mod k d ltac:(lia)). lia. }
    cbn [rdig]. rewrite E1, E2. f_equal. cbn [dot]. lia.
Qed.

(* --------------------------------------------------------- contiguity *)
Lemma contig_dot rd : forall rs e k, Forall (fun d => 0 < d) rd -> length rs = length rd ->
  contig_check e rd rs = true -> dot (rdig rd k) rs = e * (k mod zprod rd).
Proof.
  induction rd as [|d rd IH]; intros rs e k Hpos Hlen Hc; simpl.
  - rewrite zprod_nil, Z.mod_1_r. lia.
  - destruct rs as [|s rs]; [discriminate|]. simpl in Hc.
    destruct (s =? e) eqn:E; [|discriminate]. inversion Hpos; subst.
    pose proof (zprod_pos rd H2).
    rewrite (IH rs (e * d) (k / d)) by (auto; simpl in Hlen; lia).
    rewrite zprod_cons. rewrite Z.rem_mul_r by lia. assert (s = e) by lia. subst. nia.
Qed.

Definition elsize_of (me : endian) (a : array) : Z := itemsize me (a_dtype a).
Definition contig_of (me : endian) (a : array) : bool :=
  contig_check (elsize_of me a) (rev (a_dims a)) (rev (a_strides a)).

(* Iterator state after k advances. *)
Record iter_at (me : endian) (it : iter) (a : array) (k : Z) : Prop := {
  ia_arr : it_arr it = a;
  ia_contig : it_contig it = contig_of me a;
  ia_plen : length (it_pos it) = length (a_dims a);
  ia_ptr_c : contig_of me a = true -> it_ptr it = a_data a + k * elsize_of me a;
  ia_pos : contig_of me a = false -> rev (it_pos it) = rdig (rev (a_dims a)) k;
  ia_ptr_n : contig_of me a = false ->
     it_ptr it = a_data a + dot (rdig (rev (a_dims a)) k) (rev (a_strides a))
}.

Lemma rdig_zero rd : Forall (fun d => 0 < d) rd -> rdig rd 0 = map (fun _ => 0) rd.
Proof.
  induction 1; simpl; auto. rewrite Z.mod_0_l, Z.div_0_l by lia. rewrite IHForall. reflexivity.
Qed.

Lemma dot_zero {A} (l : list A) : forall b, dot (map (fun _ => 0) l) b = 0.
Proof. induction l; intros [|y b]; simpl; auto. Qed.

Lemma iter_init_at me a : array_ok a -> iter_at me (iter_init me a) a 0.
Proof.
  intros H.
  assert (Hp : Forall (fun d => 0 < d) (rev (a_dims a))) by (apply Forall_rev, H).
  constructor; simpl; auto.
  - rewrite map_length. reflexivity.
  - intros _. lia.
  - intros _. rewrite rdig_zero by auto. rewrite <- map_rev. reflexivity.
  - intros _. rewrite rdig_zero by auto. rewrite dot_zero. lia.
Qed.

Lemma elem_addr_rdig a k : array_ok a -> 0 <= k < a_size a ->
  elem_addr a k = a_data a + dot (rdig (rev (a_dims a)) k) (rev (a_strides a)).
Proof.
  intros H Hk. unfold elem_addr. f_equal.
  rewrite <- rdig_row_major; [|apply H|rewrite <- (ao_size _ H); lia].
  rewrite <- (rev_involutive (a_strides a)) at 1.
  apply dot_rev. rewrite rdig_length, !rev_length. symmetry. apply H.
Qed.

Lemma elem_addr_contig me a k : array_ok a -> contig_of me a = true -> 0 <= k < a_size a ->
  elem_addr a k = a_data a + k * elsize_of me a.
Proof.
  intros H Hc Hk. rewrite elem_addr_rdig by auto. f_equal.
  unfold contig_of in Hc. rewrite contig_dot with (e := elsize_of me a); auto.
  - rewrite zprod_rev, <- (ao_size _ H), Z.mod_small by lia. lia.
  - apply Forall_rev, H.
  - rewrite !rev_length. apply H.
Qed.

Lemma iter_at_ptr me it a k : array_ok a -> iter_at me it a k -> 0 <= k < a_size a ->
  it_ptr it = elem_addr a k.
Proof.
  intros H Hi Hk. destruct (contig_of me a) eqn:E.
  - rewrite (ia_ptr_c _ _ _ _ Hi E). symmetry. apply elem_addr_contig; auto.
  - rewrite (ia_ptr_n _ _ _ _ Hi E). symmetry. apply elem_addr_rdig; auto.
Qed.

Lemma contig_last_stride me a : array_ok a -> contig_of me a = true ->
  last_stride a = Some (elsize_of me a).
Proof.
  intros H Hc. unfold last_stride, contig_of in *.
  pose proof (ao_len _ H) as Hl. pose proof (ao_ndim _ H) as Hn.
  assert (Hl2 : length (rev (a_strides a)) = length (rev (a_dims a))) by (rewrite !rev_length; auto).
  destruct (rev (a_dims a)) as [|d rd] eqn:E.
  { apply (f_equal (@rev Z)) in E. rewrite rev_involutive in E. simpl in E. contradiction. }
  destruct (rev (a_strides a)) as [|s rs]; [discriminate|]. simpl in Hc.
  destruct (s =? elsize_of me a) eqn:E2; [|discriminate]. f_equal. lia.
Qed.

Lemma iter_advance_at me it a k : array_ok a -> iter_at me it a k ->
  exists it', iter_advance it = Ret it' /\ iter_at me it' a (k + 1).
Proof.
  intros H Hi. unfold iter_advance. rewrite (ia_arr _ _ _ _ Hi).
  pose proof (ao_len _ H) as Hl. pose proof (ao_ndim _ H) as Hn.
  assert (Hl2 : length (rev (a_strides a)) = length (rev (a_dims a))) by (rewrite !rev_length; auto).
  assert (Hlp : length (rev (it_pos it)) = length (rev (a_dims a)))
    by (rewrite !rev_length; apply (ia_plen _ _ _ _ Hi)).
  destruct (rev (a_dims a)) as [|d rd] eqn:E.
  { apply (f_equal (@rev Z)) in E. rewrite rev_involutive in E. simpl in E. contradiction. }
  destruct (rev (a_strides a)) as [|s rs] eqn:Es; [discriminate|].
  destruct (rev (it_pos it)) as [|p rp] eqn:Ep; [discriminate|].
  rewrite (ia_contig _ _ _ _ Hi). destruct (contig_of me a) eqn:Ec.
  - eexists. split; [reflexivity|]. 
    pose proof (contig_last_stride me a H Ec) as Hls. unfold last_stride in Hls. rewrite Es in Hls.
    injection Hls as ->.
    constructor; simpl; auto.
    + apply Hi.
    + intros _. rewrite (ia_ptr_c _ _ _ _ Hi Ec). lia.
    + congruence.
    + congruence.
  - pose proof (ia_pos _ _ _ _ Hi Ec) as Hpos. rewrite Ep in Hpos.
    rewrite (ia_ptr_n _ _ _ _ Hi Ec). rewrite Es, E in *.
    rewrite (carry_spec (d :: rd) (s :: rs) k (a_data a) s) with (p := p) (rp := rp); auto.
    2:{ rewrite <- E. apply Forall_rev, H. }
    eexists. split; [reflexivity|]. constructor; cbn [it_arr it_contig it_pos it_ptr]; auto.
    + rewrite rev_length, rdig_length, <- E, rev_length. reflexivity.
    + congruence.
    + intros _. rewrite rev_involutive, E. reflexivity.
    + intros _. rewrite E, Es. reflexivity.
Qed.

Lemma iter_at_shift me it a k n : contig_of me a = true -> iter_at me it a k ->
  iter_at me (mkIter (it_arr it) (it_pos it) (it_ptr it + n * elsize_of me a) (it_contig it)) a (k + n).
Proof.
  intros Hc Hi. constructor; simpl.
  - apply Hi.
  - apply Hi.
  - apply Hi.
  - intros _. rewrite (ia_ptr_c _ _ _ _ Hi Hc). lia.
  - congruence.
  - congruence.
Qed.
