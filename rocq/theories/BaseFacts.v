(* Facts about Base. *)
From Coq.Strings Require Import Byte String.
From Coq Require Import List ZArith Lia Bool ZifyBool.
From Verif Require Import Base.
Import ListNotations.
Open Scope Z_scope.

(* ---------------------------------------------------------------- bytes *)
Lemma b2z_range b : 0 <= b2z b < 256.
Proof. unfold b2z. pose proof (Byte.to_N_bounded b). lia. Qed.

Lemma z2b_b2z b : z2b (b2z b) = b.
Proof. destruct b; reflexivity. Qed.

Lemma z2b_mod z : z2b (z mod 256) = z2b z.
Proof. unfold z2b. rewrite Z.mod_mod by lia. reflexivity. Qed.

Lemma b2z_z2b z : b2z (z2b z) = z mod 256.
Proof.
  unfold z2b, b2z.
  assert (H : 0 <= z mod 256 < 256) by (apply Z.mod_pos_bound; lia).
  destruct (Byte.of_N (Z.to_N (z mod 256))) eqn:E.
  - apply Byte.to_of_N in E. rewrite E. rewrite Z2N.id; lia.
  - apply Byte.of_N_None_iff in E. lia.
Qed.

Lemma b2z_inj a b : b2z a = b2z b -> a = b.
Proof. intros H. rewrite <- (z2b_b2z a), <- (z2b_b2z b), H. reflexivity. Qed.

Lemma byte_eqb_eq a b : Byte.eqb a b = true <-> a = b.
Proof.
  split; intros H.
  - apply Byte.byte_dec_bl; assumption.
  - apply Byte.byte_dec_lb; assumption.
Qed.
Lemma byte_eqb_refl a : Byte.eqb a a = true.
Proof. apply byte_eqb_eq; reflexivity. Qed.
Lemma byte_eqb_neq a b : Byte.eqb a b = false <-> a <> b.
Proof.
  split; intros H.
  - intros ->. rewrite byte_eqb_refl in H. discriminate.
  - destruct (Byte.eqb a b) eqn:E; auto. apply byte_eqb_eq in E. contradiction.
Qed.

Lemma bytes_eqb_eq a : forall b, bytes_eqb a b = true <-> a = b.
Proof.
  induction a as [|x a IH]; intros [|y b]; simpl; split; intros H; try discriminate; auto.
  - apply andb_prop in H as [H1 H2]. apply byte_eqb_eq in H1. apply IH in H2. congruence.
  - injection H as -> ->. rewrite byte_eqb_refl. apply IH. reflexivity.
Qed.
Lemma bytes_eqb_refl a : bytes_eqb a a = true.
Proof. apply bytes_eqb_eq; reflexivity. Qed.
Lemma bytes_eqb_neq a b : bytes_eqb a b = false <-> a <> b.
Proof.
  split; intros H.
  - intros ->. rewrite bytes_eqb_refl in H. discriminate.
  - destruct (bytes_eqb a b) eqn:E; auto. apply bytes_eqb_eq in E. contradiction.
Qed.

(* ---------------------------------------------------------------- wraps *)
Lemma u32_id z : 0 <= z < 2 ^ 32 -> u32 z = z.
Proof. intros. unfold u32. apply Z.mod_small; lia. Qed.
Lemma u64_id z : 0 <= z < 2 ^ 64 -> u64 z = z.
Proof. intros. unfold u64. apply Z.mod_small; lia. Qed.
Lemma s32_id z : - 2 ^ 31 <= z < 2 ^ 31 -> s32 z = z.
Proof. intros. unfold s32. rewrite Z.mod_small; lia. Qed.
Lemma s64_id z : - 2 ^ 63 <= z < 2 ^ 63 -> s64 z = z.
Proof. intros. unfold s64. rewrite Z.mod_small; lia. Qed.
Lemma u64_range z : 0 <= u64 z < 2 ^ 64.
Proof. unfold u64. apply Z.mod_pos_bound; lia. Qed.
Lemma u32_range z : 0 <= u32 z < 2 ^ 32.
Proof. unfold u32. apply Z.mod_pos_bound; lia. Qed.
Lemma s64_range z : - 2 ^ 63 <= s64 z < 2 ^ 63.
Proof. unfold s64. pose proof (Z.mod_pos_bound (z + 2 ^ 63) (2 ^ 64)). lia. Qed.
Lemma s32_range z : - 2 ^ 31 <= s32 z < 2 ^ 31.
Proof. unfold s32. pose proof (Z.mod_pos_bound (z + 2 ^ 31) (2 ^ 32)). lia. Qed.
Lemma u64_s64 z : u64 (s64 z) = u64 z.
Proof.
  unfold u64, s64.
  rewrite Zminus_mod, Z.mod_mod, <- Zminus_mod by lia. f_equal. lia.
Qed.
Lemma s64_u64 z : s64 (u64 z) = s64 z.
Proof. unfold u64, s64. rewrite Zplus_mod_idemp_l. reflexivity. Qed.
Lemma u64_neg z : - 2 ^ 63 <= z < 0 -> u64 z = z + 2 ^ 64.
Proof.
  intros. unfold u64. rewrite <- (Z.mod_add z 1 (2 ^ 64)) by lia.
  apply Z.mod_small. lia.
Qed.

(* ------------------------------------------------------------ le codec *)
Lemma le_val_range l : 0 <= le_val l < 256 ^ Z.of_nat (length l).
Proof.
  induction l as [|b l IH].
  - simpl. lia.
  - cbn [le_val length]. rewrite Nat2Z.inj_succ, Z.pow_succ_r by lia.
    pose proof (b2z_range b). nia.
Qed.

Lemma le_enc_length n : forall z, length (le_enc n z) = n.
Proof. induction n; simpl; intros; auto. Qed.

Lemma le_enc_val l : le_enc (length l) (le_val l) = l.
Proof.
  induction l as [|b l IH]; [reflexivity|].
  cbn [length le_val le_enc]. pose proof (b2z_range b). f_equal.
  - rewrite <- z2b_mod.
    rewrite (Z.mul_comm 256), Z.mod_add, Z.mod_small by lia. apply z2b_b2z.
  - rewrite (Z.mul_comm 256), Z.div_add, Z.div_small by lia. simpl. exact IH.
Qed.

Lemma le_val_enc n : forall z, le_val (le_enc n z) = z mod 256 ^ Z.of_nat n.
Proof.
  induction n as [|n IH]; intros z.
  - simpl. rewrite Z.mod_1_r. reflexivity.
  - cbn [le_enc le_val]. rewrite b2z_z2b, IH.
    rewrite Nat2Z.inj_succ, Z.pow_succ_r by lia.
    rewrite Z.rem_mul_r by (try apply Z.pow_nonzero; lia). lia.
Qed.

Lemma le_val_inj a b : length a = length b -> le_val a = le_val b -> a = b.
Proof. intros Hl Hv. rewrite <- (le_enc_val a), <- (le_enc_val b), Hl, Hv. reflexivity. Qed.

Lemma pow256 n : 256 ^ Z.of_nat n = 2 ^ (8 * Z.of_nat n).
Proof. rewrite Z.pow_mul_r by lia. reflexivity. Qed.

(* -------------------------------------------------------------- lists *)
Lemma zlen_nonneg {A} (l : list A) : 0 <= zlen l.
Proof. unfold zlen. lia. Qed.
Lemma zlen_app {A} (a b : list A) : zlen (a ++ b) = zlen a + zlen b.
Proof. unfold zlen. rewrite app_length. lia. Qed.
Lemma zlen_cons {A} x (l : list A) : zlen (x :: l) = 1 + zlen l.
Proof. unfold zlen. cbn [length]. lia. Qed.

Lemma znth_lt {A} (l : list A) i x : znth l i = Some x -> 0 <= i < zlen l.
Proof.
  unfold znth, zlen. destruct (i <? 0) eqn:E; [discriminate|]. intros H.
  assert (nth_error l (Z.to_nat i) <> None) by congruence.
  apply nth_error_Some in H0. lia.
Qed.
Lemma znth_some {A} (l : list A) i : 0 <= i < zlen l -> exists x, znth l i = Some x.
Proof.
  unfold znth, zlen. intros H. destruct (i <? 0) eqn:E; [lia|].
  destruct (nth_error l (Z.to_nat i)) eqn:E2; [eauto|].
  apply nth_error_None in E2. lia.
Qed.
Lemma znth_nat {A} (l : list A) (n : nat) : znth l (Z.of_nat n) = nth_error l n.
Proof. unfold znth. destruct (Z.of_nat n <? 0) eqn:E; [lia|]. rewrite Nat2Z.id. reflexivity. Qed.
Lemma znth_to_nat {A} (l : list A) i : 0 <= i -> znth l i = nth_error l (Z.to_nat i).
Proof. intros. unfold znth. destruct (i <? 0) eqn:E; [lia|]. reflexivity. Qed.
Lemma znth_app1 {A} (a b : list A) i : i < zlen a -> znth (a ++ b) i = znth a i.
Proof.
  unfold znth, zlen. intros. destruct (i <? 0) eqn:E; auto. apply nth_error_app1. lia.
Qed.
Lemma znth_app2 {A} (a b : list A) i : zlen a <= i -> znth (a ++ b) i = znth b (i - zlen a).
Proof.
  unfold znth, zlen. intros. destruct (i <? 0) eqn:E; [lia|].
  destruct (i - Z.of_nat (length a) <? 0) eqn:E2; [lia|].
  rewrite nth_error_app2 by lia. f_equal. lia.
Qed.
Lemma znth_nth {A} (l : list A) i d : 0 <= i < zlen l -> znth l i = Some (nth (Z.to_nat i) l d).
Proof.
  intros. rewrite znth_to_nat by lia. apply nth_error_nth'. unfold zlen in H. lia.
Qed.
Lemma znth_map {A B} (g : A -> B) (l : list A) i : znth (map g l) i = option_map g (znth l i).
Proof.
  unfold znth. destruct (i <? 0); auto. rewrite nth_error_map. reflexivity.
Qed.

Lemma upd_length {A} (l : list A) : forall n x, length (upd l n x) = length l.
Proof. induction l; intros [|n] x; simpl; auto. Qed.
Lemma nth_error_upd_same {A} (l : list A) : forall n x, (n < length l)%nat ->
  nth_error (upd l n x) n = Some x.
Proof. induction l; intros [|n] x H; simpl in *; try lia; auto. apply IHl. lia. Qed.
Lemma nth_error_upd_other {A} (l : list A) : forall n m x, n <> m ->
  nth_error (upd l n x) m = nth_error l m.
Proof.
  induction l; intros [|n] [|m] x H; simpl; auto; try lia.
Qed.
Lemma nth_upd {A} (l : list A) : forall n m x d, (n < length l)%nat ->
  nth m (upd l n x) d = if (n =? m)%nat then x else nth m l d.
Proof.
  induction l; intros [|n] [|m] x d H; simpl in *; try lia; auto.
  apply IHl. lia.
Qed.
Lemma upd_app1 {A} (a b : list A) : forall n x, (n < length a)%nat ->
  upd (a ++ b) n x = upd a n x ++ b.
Proof. induction a; intros [|n] x H; simpl in *; try lia; auto. rewrite IHa by lia. reflexivity. Qed.

Lemma zupd_some {A} (l : list A) i x : 0 <= i < zlen l -> zupd l i x = Some (upd l (Z.to_nat i) x).
Proof.
  unfold zupd, zlen. intros.
  destruct ((i <? 0) || (Z.of_nat (length l) <=? i)) eqn:E; auto. lia.
Qed.
Lemma zupd_inv {A} (l l' : list A) i x : zupd l i x = Some l' ->
  0 <= i < zlen l /\ l' = upd l (Z.to_nat i) x.
Proof.
  unfold zupd, zlen.
  destruct ((i <? 0) || (Z.of_nat (length l) <=? i)) eqn:E; intros H; inversion H. split; auto. lia.
Qed.
Lemma zlen_upd {A} (l : list A) n x : zlen (upd l n x) = zlen l.
Proof. unfold zlen. rewrite upd_length. reflexivity. Qed.
Lemma znth_upd {A} (l : list A) i j x : 0 <= i < zlen l ->
  znth (upd l (Z.to_nat i) x) j = if i =? j then Some x else znth l j.
Proof.
  unfold zlen, znth. intros.
  destruct (j <? 0) eqn:E; destruct (i =? j) eqn:E2; auto; try lia.
  - assert (i = j) by lia. subst. apply nth_error_upd_same. lia.
  - apply nth_error_upd_other. lia.
Qed.

Lemma zsum_app a b : zsum (a ++ b) = zsum a + zsum b.
Proof. unfold zsum. induction a as [|x a IH]; simpl; lia. Qed.
Lemma zsum_nonneg l : Forall (fun x => 0 <= x) l -> 0 <= zsum l.
Proof. unfold zsum. induction 1; simpl; lia. Qed.

Lemma nth_error_ext {A} (a b : list A) : (forall n, nth_error a n = nth_error b n) -> a = b.
Proof.
  revert b. induction a as [|x a IH]; intros [|y b] H; auto.
  - specialize (H 0%nat). discriminate.
  - specialize (H 0%nat). discriminate.
  - f_equal. { specialize (H 0%nat). simpl in H. congruence. }
    apply IH. intros n. exact (H (S n)).
Qed.
Lemma nth_error_ext_len {A} (a b : list A) : length a = length b ->
  (forall j v v', nth_error a j = Some v -> nth_error b j = Some v' -> v = v') -> a = b.
Proof.
  intros Hl H. apply nth_error_ext. intros j. destruct (nth_error a j) as [v|] eqn:Ea, (nth_error b j) as [v'|] eqn:Eb; auto.
  - f_equal. eauto.
  - apply nth_error_None in Eb. assert (j < length a)%nat by (apply nth_error_Some; congruence). lia.
  - apply nth_error_None in Ea. assert (j < length b)%nat by (apply nth_error_Some; congruence). lia.
Qed.

(* -------------------------------------------------------------- memory *)
Definition mem_eq (m1 m2 : mem) : Prop := forall a, m1 a = m2 a.

Lemma load_length m n : forall a l, load m a n = Some l -> length l = n.
Proof.
  induction n; simpl; intros a l H; [inversion H; auto|].
  destruct (m a); [|discriminate]. destruct (load m (a + 1) n) eqn:E; [|discriminate].
  inversion H. simpl. f_equal. eauto.
Qed.

Lemma load_nth m n : forall a l, load m a n = Some l ->
  forall k, (k < n)%nat -> m (a + Z.of_nat k) = nth_error l k.
Proof.
  induction n; simpl; intros a l H k Hk; [lia|].
  destruct (m a) eqn:Ea; [|discriminate]. destruct (load m (a + 1) n) eqn:E; [|discriminate].
  inversion H; subst. destruct k.
  - simpl. rewrite Z.add_0_r. exact Ea.
  - simpl. rewrite <- (IHn _ _ E k) by lia. f_equal. lia.
Qed.

Lemma load_intro m n : forall a l, length l = n ->
  (forall k, (k < n)%nat -> m (a + Z.of_nat k) = nth_error l k) -> load m a n = Some l.
Proof.
  induction n; intros a l Hl H; destruct l; simpl in *; try lia; auto.
  pose proof (H 0%nat ltac:(lia)) as H0. simpl in H0. rewrite Z.add_0_r in H0. rewrite H0.
  rewrite (IHn (a + 1) l); auto; try lia. intros k Hk.
  specialize (H (S k) ltac:(lia)). simpl in H. rewrite <- H. f_equal. lia.
Qed.

Lemma load_app m a n1 n2 l1 l2 :
  load m a n1 = Some l1 -> load m (a + Z.of_nat n1) n2 = Some l2 ->
  load m a (n1 + n2) = Some (l1 ++ l2).
Proof.
  intros H1 H2. pose proof (load_length _ _ _ _ H1). pose proof (load_length _ _ _ _ H2).
  apply load_intro. { rewrite app_length; lia. }
  intros k Hk. destruct (Nat.ltb_spec k n1).
  - rewrite nth_error_app1 by lia. apply (load_nth _ _ _ _ H1). lia.
  - rewrite nth_error_app2 by lia. rewrite <- (load_nth _ _ _ _ H2) by lia. f_equal. lia.
Qed.

Lemma load_split m a n1 n2 l : load m a (n1 + n2) = Some l ->
  load m a n1 = Some (firstn n1 l) /\ load m (a + Z.of_nat n1) n2 = Some (skipn n1 l).
Proof.
  intros H. pose proof (load_length _ _ _ _ H).
  split; apply load_intro.
  - rewrite firstn_length; lia.
  - intros k Hk. rewrite (load_nth _ _ _ _ H) by lia.
    rewrite <- (firstn_skipn n1 l) at 1. apply nth_error_app1. rewrite firstn_length; lia.
  - rewrite skipn_length; lia.
  - intros k Hk. replace (a + Z.of_nat n1 + Z.of_nat k) with (a + Z.of_nat (n1 + k)) by lia.
    rewrite (load_nth _ _ _ _ H) by lia.
    rewrite <- (firstn_skipn n1 l) at 1. rewrite nth_error_app2; rewrite firstn_length; [f_equal|]; lia.
Qed.

Lemma load_ext m1 m2 n : forall a, (forall k, (k < n)%nat -> m1 (a + Z.of_nat k) = m2 (a + Z.of_nat k)) ->
  load m1 a n = load m2 a n.
Proof.
  induction n; intros a H; simpl; auto.
  pose proof (H 0%nat ltac:(lia)) as H0. simpl in H0. rewrite Z.add_0_r in H0. rewrite H0.
  rewrite (IHn (a + 1)). { reflexivity. }
  intros k Hk. specialize (H (S k) ltac:(lia)). replace (a + 1 + Z.of_nat k) with (a + Z.of_nat (S k)) by lia.
  exact H.
Qed.

Lemma store_spec l : forall m a m', store m a l = Some m' ->
  forall x, m' x = if (a <=? x) && (x <? a + zlen l) then nth_error l (Z.to_nat (x - a)) else m x.
Proof.
  induction l as [|b l IH]; intros m a m' H x; simpl in H.
  - inversion H. unfold zlen. simpl. destruct ((a <=? x) && (x <? a + 0)) eqn:E; auto. lia.
  - destruct (m a); [|discriminate]. rewrite (IH _ _ _ H). rewrite zlen_cons.
    destruct ((a + 1 <=? x) && (x <? a + 1 + zlen l)) eqn:E1;
    destruct ((a <=? x) && (x <? a + (1 + zlen l))) eqn:E2; try lia.
    + replace (Z.to_nat (x - a)) with (S (Z.to_nat (x - (a + 1)))) by lia. reflexivity.
    + destruct (x =? a) eqn:E3.
      * assert (x = a) by lia. subst. rewrite Z.sub_diag. reflexivity.
      * pose proof (zlen_nonneg l). lia.
    + destruct (x =? a) eqn:E3; auto. pose proof (zlen_nonneg l). lia.
Qed.

Lemma store_frame l m a m' : store m a l = Some m' ->
  forall x, ~ (a <= x < a + zlen l) -> m' x = m x.
Proof.
  intros H x Hx. rewrite (store_spec _ _ _ _ H).
  destruct ((a <=? x) && (x <? a + zlen l)) eqn:E; auto. lia.
Qed.

Lemma store_some l : forall m a, (forall k, (k < length l)%nat -> m (a + Z.of_nat k) <> None) ->
  exists m', store m a l = Some m'.
Proof.
  induction l as [|b l IH]; intros m a H; simpl; [eauto|].
  pose proof (H 0%nat ltac:(simpl; lia)) as H0. simpl in H0. rewrite Z.add_0_r in H0.
  destruct (m a) eqn:E; [|congruence]. apply IH. intros k Hk.
  specialize (H (S k) ltac:(simpl; lia)).
  destruct (a + 1 + Z.of_nat k =? a) eqn:E2; [lia|].
  replace (a + 1 + Z.of_nat k) with (a + Z.of_nat (S k)) by lia. exact H.
Qed.

Lemma store_mapped l : forall m a m', store m a l = Some m' ->
  forall k, (k < length l)%nat -> m (a + Z.of_nat k) <> None.
Proof.
  induction l as [|b l IH]; intros m a m' H k Hk; simpl in *; [lia|].
  destruct (m a) eqn:E; [|discriminate]. destruct k.
  - simpl. rewrite Z.add_0_r. congruence.
  - specialize (IH _ _ _ H k ltac:(lia)). cbv beta in IH.
    destruct (a + 1 + Z.of_nat k =? a) eqn:E2; [lia|].
    replace (a + Z.of_nat (S k)) with (a + 1 + Z.of_nat k) by lia. exact IH.
Qed.

Lemma store_domain l m a m' : store m a l = Some m' -> forall x, (m x = None <-> m' x = None).
Proof.
  intros H x. pose proof (store_mapped _ _ _ _ H) as Hm. rewrite (store_spec _ _ _ _ H x).
  destruct ((a <=? x) && (x <? a + zlen l)) eqn:E; [|tauto].
  unfold zlen in E. specialize (Hm (Z.to_nat (x - a)) ltac:(lia)).
  replace (a + Z.of_nat (Z.to_nat (x - a))) with x in Hm by lia. split; intros; [contradiction|].
  apply nth_error_None in H0. lia.
Qed.

Lemma load_store_same m a l m' : store m a l = Some m' -> load m' a (length l) = Some l.
Proof.
  intros H. apply load_intro; auto. intros k Hk. rewrite (store_spec _ _ _ _ H). unfold zlen.
  destruct ((a <=? a + Z.of_nat k) && (a + Z.of_nat k <? a + Z.of_nat (length l))) eqn:E; [|lia].
  f_equal. lia.
Qed.

Lemma load_store_other m a l m' b n : store m a l = Some m' ->
  (b + Z.of_nat n <= a \/ a + zlen l <= b) -> load m' b n = load m b n.
Proof.
  intros H Hd. apply load_ext. intros k Hk. rewrite (store_spec _ _ _ _ H).
  destruct ((a <=? b + Z.of_nat k) && (b + Z.of_nat k <? a + zlen l)) eqn:E; auto. lia.
Qed.

Lemma load_some m a n : (forall k, (k < n)%nat -> m (a + Z.of_nat k) <> None) ->
  exists l, load m a n = Some l.
Proof.
  revert a. induction n; intros a H; simpl; [eauto|].
  pose proof (H 0%nat ltac:(lia)) as H0. simpl in H0. rewrite Z.add_0_r in H0.
  destruct (m a); [|congruence].
  destruct (IHn (a + 1)) as [l El].
  { intros k Hk. specialize (H (S k) ltac:(lia)).
    replace (a + 1 + Z.of_nat k) with (a + Z.of_nat (S k)) by lia. exact H. }
  rewrite El. eauto.
Qed.

Lemma load_mapped m a n l : load m a n = Some l -> forall k, (k < n)%nat -> m (a + Z.of_nat k) <> None.
Proof.
  intros H k Hk. rewrite (load_nth _ _ _ _ H) by lia.
  pose proof (load_length _ _ _ _ H). intros E. apply nth_error_None in E. lia.
Qed.

Lemma load_mem_of a l : load (mem_of a l) a (length l) = Some l.
Proof.
  apply load_intro; auto. intros k Hk. unfold mem_of.
  destruct (a + Z.of_nat k <? a) eqn:E; [lia|]. f_equal. lia.
Qed.

Lemma Forall2_length {A B} {P : A -> B -> Prop} {l l'} : Forall2 P l l' -> length l = length l'.
Proof. induction 1; simpl; auto. Qed.
