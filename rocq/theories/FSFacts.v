(* Proofs about the file system and the names of the files of a block. *)
From Coq.Strings Require Import Byte String.
From Coq Require Import List ZArith Lia Bool ZifyBool ZifyNat.
From Verif Require Import Base BaseFacts Dtype Cast Array FS Fmt Block Spec.
Import ListNotations.
Open Scope Z_scope.
Ltac Zify.zify_post_hook ::= Z.div_mod_to_equations.

Lemma path_eqb_eq a : forall b, path_eqb a b = true <-> a = b.
Proof.
  induction a as [|x a IH]; intros [|y b]; simpl; try (split; congruence).
  rewrite andb_true_iff, bytes_eqb_eq, IH. split; [intros [-> ->]; auto|intros H; injection H; auto].
Qed.
Lemma path_eqb_refl a : path_eqb a a = true.
Proof. apply path_eqb_eq. reflexivity. Qed.
Lemma path_eqb_neq a b : path_eqb a b = false <-> a <> b.
Proof.
  destruct (path_eqb a b) eqn:E.
  - apply path_eqb_eq in E. split; congruence.
  - split; auto. intros _ H. apply path_eqb_eq in H. congruence.
Qed.

Lemma fs_find_del f p q : fs_find (fs_del f p) q = if path_eqb p q then None else fs_find f q.
Proof.
  induction f as [|[r n] f IH]; simpl.
  - destruct (path_eqb p q); auto.
  - destruct (path_eqb r p) eqn:E1.
    + rewrite IH. apply path_eqb_eq in E1. subst. destruct (path_eqb p q); auto.
    + simpl. rewrite IH. destruct (path_eqb r q) eqn:E2; destruct (path_eqb p q) eqn:E3; auto.
      apply path_eqb_eq in E2. apply path_eqb_eq in E3. subst. rewrite path_eqb_refl in E1. discriminate.
Qed.

Lemma fs_find_set f p n q : fs_find (fs_set f p n) q = if path_eqb p q then Some n else fs_find f q.
Proof.
  unfold fs_set. simpl. destruct (path_eqb p q) eqn:E; auto. rewrite fs_find_del, E. reflexivity.
Qed.

(* A path that is not one of the built-in directories. *)
Definition proper (p : path) : Prop := p <> [] /\ p <> [lit "/"].

Lemma fs_get_proper f p : proper p -> fs_get f p = fs_find f p.
Proof.
  intros [H1 H2]. destruct p as [|c [|d p]]; simpl; auto; [contradiction|].
  destruct (bytes_eqb c (lit "/")) eqn:E; auto. apply bytes_eqb_eq in E. subst. contradiction.
Qed.

Lemma fs_get_set_same f p n : proper p -> fs_get (fs_set f p n) p = Some n.
Proof. intros H. rewrite fs_get_proper by auto. rewrite fs_find_set, path_eqb_refl. reflexivity. Qed.
Lemma fs_get_set_other f p n q : q <> p -> fs_get (fs_set f p n) q = fs_get f q.
Proof.
  intros H. assert (E : fs_find (fs_set f p n) q = fs_find f q).
  { rewrite fs_find_set. destruct (path_eqb p q) eqn:E; auto. apply path_eqb_eq in E. congruence. }
  destruct q as [|c [|d q]]; cbn [fs_get]; auto. destruct (bytes_eqb c (lit "/")); auto.
Qed.
Lemma fs_get_set f p n q : proper p ->
  fs_get (fs_set f p n) q = if path_eqb p q then Some n else fs_get f q.
Proof.
  intros H. destruct (path_eqb p q) eqn:E.
  - apply path_eqb_eq in E. subst. apply fs_get_set_same; auto.
  - apply fs_get_set_other. apply path_eqb_neq in E. congruence.
Qed.

Lemma fs_eq_refl f : fs_eq f f. Proof. intros p. reflexivity. Qed.
Lemma fs_eq_sym f g : fs_eq f g -> fs_eq g f. Proof. intros H p. auto. Qed.
Lemma fs_eq_trans f g h : fs_eq f g -> fs_eq g h -> fs_eq f h.
Proof. intros H1 H2 p. rewrite H1. apply H2. Qed.
Lemma fs_eq_set f g p n : fs_eq f g -> fs_eq (fs_set f p n) (fs_set g p n).
Proof.
  intros H q. specialize (H q).
  destruct (path_eqb p q) eqn:E.
  - apply path_eqb_eq in E. subst. destruct q as [|c [|d q]]; cbn [fs_get] in *; auto.
    + rewrite !fs_find_set. rewrite path_eqb_refl. reflexivity.
    + rewrite !fs_find_set. rewrite path_eqb_refl. reflexivity.
  - rewrite !fs_get_set_other; auto; apply path_eqb_neq in E; congruence.
Qed.
Lemma fs_set_set f p n n' : proper p -> fs_eq (fs_set (fs_set f p n) p n') (fs_set f p n').
Proof. intros H q. rewrite !fs_get_set by auto. destruct (path_eqb p q); auto. Qed.

(* ------------------------------------------------------------- paths *)
Definition slash : byte := "/"%byte.

Definition plain (name : bytes) : Prop := is_dot name = false /\ ~ In slash name.

Lemma split_slash_app s : forall cur t,
  split_slash cur (s ++ slash :: t) = split_slash cur s ++ split_slash [] t.
Proof.
  induction s as [|c s IH]; intros cur t; cbn [split_slash app].
  - reflexivity.
  - destruct (Byte.eqb c "/"); rewrite IH; reflexivity.
Qed.

Lemma split_slash_plain t : forall cur, ~ In slash t -> split_slash cur t = [rev cur ++ t].
Proof.
  induction t as [|c t IH]; intros cur H; cbn [split_slash].
  - rewrite app_nil_r. reflexivity.
  - destruct (Byte.eqb c "/") eqn:E.
    + apply byte_eqb_eq in E. exfalso. apply H. left. exact E.
    + rewrite IH by (intros Hx; apply H; right; auto). simpl. rewrite <- app_assoc. reflexivity.
Qed.

Lemma resolve_join base name : plain name -> resolve (path_join base name) = resolve base ++ [name].
Proof.
  intros [Hd Hs]. unfold path_join. destruct (rev base) as [|c rb] eqn:E.
  - apply (f_equal (@rev byte)) in E. rewrite rev_involutive in E. simpl in E. subst.
    unfold resolve. destruct name as [|c name]; [discriminate|].
    destruct (Byte.eqb c "/") eqn:E2.
    { apply byte_eqb_eq in E2. exfalso. apply Hs. left. exact E2. }
    rewrite split_slash_plain by auto. cbn [rev app filter split_slash]. rewrite Hd. reflexivity.
  - apply (f_equal (@rev byte)) in E. rewrite rev_involutive in E. simpl in E.
    destruct (Byte.eqb c "/") eqn:E2.
    + apply byte_eqb_eq in E2. subst. unfold resolve.
      replace ((rev rb ++ ["/"%byte]) ++ name) with (rev rb ++ slash :: name)
        by (rewrite <- app_assoc; reflexivity).
      rewrite split_slash_app. change (rev rb ++ ["/"%byte]) with (rev rb ++ slash :: []).
      rewrite split_slash_app. rewrite !filter_app, (split_slash_plain name) by auto. cbn [split_slash].
      destruct (rev rb) as [|d r]; cbn [app rev filter]; rewrite Hd; cbn [is_dot negb filter app];
        rewrite ?app_nil_r, <- ?app_assoc; reflexivity.
    + unfold resolve. change (base ++ ["/"%byte] ++ name) with (base ++ slash :: name).
      rewrite split_slash_app. rewrite !filter_app, (split_slash_plain name) by auto.
      destruct base as [|d r]; cbn [app rev filter]; rewrite Hd; cbn [is_dot negb filter app].
      * destruct (rev rb); discriminate.
      * rewrite <- ?app_assoc. reflexivity.
Qed.

Lemma proper_join base name : plain name -> proper (resolve (path_join base name)).
Proof.
  intros H. rewrite resolve_join by auto. split.
  - destruct (resolve base); discriminate.
  - intros E. destruct (resolve base) as [|x l] eqn:Eb.
    + simpl in E. injection E as E. apply (proj2 H). rewrite E. left. reflexivity.
    + simpl in E. injection E as _ E. destruct l; discriminate.
Qed.

Lemma join_inj base n1 n2 : plain n1 -> plain n2 ->
  resolve (path_join base n1) = resolve (path_join base n2) -> n1 = n2.
Proof.
  intros H1 H2. rewrite !resolve_join by auto. intros E. apply app_inj_tail in E. apply E.
Qed.

(* ------------------------------------------------------------- digits *)
Lemma digits_inj base dig : 1 < base ->
  (forall a b, 0 <= a < base -> 0 <= b < base -> dig a = dig b -> a = b) ->
  forall fuel x y, 0 <= x < base ^ Z.of_nat fuel -> 0 <= y < base ^ Z.of_nat fuel ->
  digits_lsf base dig fuel x = digits_lsf base dig fuel y -> x = y.
Proof.
  intros Hb Hd. induction fuel as [|k IH]; intros x y Hx Hy E.
  - simpl in Hx, Hy. lia.
  - cbn [digits_lsf] in E. injection E as E1 E2.
    apply Hd in E1; try (apply Z.mod_pos_bound; lia).
    rewrite Nat2Z.inj_succ, Z.pow_succ_r in Hx, Hy by lia.
    assert (Bx : 0 <= x / base < base ^ Z.of_nat k)
      by (split; [apply Z.div_pos; lia|apply Z.div_lt_upper_bound; lia]).
    assert (By : 0 <= y / base < base ^ Z.of_nat k)
      by (split; [apply Z.div_pos; lia|apply Z.div_lt_upper_bound; lia]).
    assert (x / base = y / base).
    { destruct (x / base =? 0) eqn:F1; destruct (y / base =? 0) eqn:F2; try lia.
      - destruct k; [simpl in By; lia|discriminate].
      - destruct k; [simpl in Bx; lia|discriminate].
      - apply IH; auto. }
    rewrite (Z.div_mod x base), (Z.div_mod y base) by lia. congruence.
Qed.

Lemma xdigit_inj a b : 0 <= a < 16 -> 0 <= b < 16 -> xdigit a = xdigit b -> a = b.
Proof.
  intros Ha Hb H. apply (f_equal b2z) in H. unfold xdigit in H.
  destruct (a <? 10) eqn:Ea; destruct (b <? 10) eqn:Eb; rewrite !b2z_z2b in H;
    change (b2z "0") with 48 in *; change (b2z "A") with 65 in *; lia.
Qed.

Lemma digits_zero_last base dig : forall fuel z, 1 < base -> 0 <= z < base ^ Z.of_nat fuel -> 0 < z ->
  (forall a, 0 < a < base -> dig a <> dig 0) ->
  exists l d, digits_lsf base dig fuel z = l ++ [d] /\ d <> dig 0.
Proof.
  induction fuel as [|k IH]; intros z Hb Hz Hp Hd; [simpl in Hz; lia|].
  cbn [digits_lsf]. rewrite Nat2Z.inj_succ, Z.pow_succ_r in Hz by lia.
  destruct (z / base =? 0) eqn:E.
  - exists [], (dig (z mod base)). split; auto. apply Hd.
    pose proof (Z.div_mod z base ltac:(lia)). pose proof (Z.mod_pos_bound z base ltac:(lia)). nia.
  - destruct (IH (z / base)) as (l & d & -> & Hnd); auto.
    + split; [apply Z.div_pos; lia|apply Z.div_lt_upper_bound; lia].
    + pose proof (Z.div_pos z base). lia.
    + exists (dig (z mod base) :: l), d. auto.
Qed.

Lemma digits_nonnil base dig fuel z : (0 < fuel)%nat -> digits_lsf base dig fuel z <> [].
Proof. destruct fuel; [lia|]. discriminate. Qed.

(* stripping leading zeros recovers the digits *)
Fixpoint strip0 (l : bytes) : bytes :=
  match l with
  | c :: r => if Byte.eqb c "0" then strip0 r else l
  | [] => []
  end.

Lemma strip0_repeat n l : strip0 (repeat "0"%byte n ++ l) = strip0 l.
Proof. induction n; simpl; auto. Qed.

Lemma strip0_06X z : 0 <= z < 16 ^ 64 -> strip0 (print_06X z) =
  if z =? 0 then [] else rev (digits_lsf 16 xdigit 64 z).
Proof.
  intros Hz. unfold print_06X. rewrite strip0_repeat.
  destruct (z =? 0) eqn:E.
  - assert (z = 0) by lia. subst. reflexivity.
  - destruct (digits_zero_last 16 xdigit 64 z) as (l & d & -> & Hd); try lia.
    + intros a Ha Hx. apply xdigit_inj in Hx; lia.
    + rewrite rev_app_distr. simpl. destruct (Byte.eqb d "0") eqn:E2; auto.
      apply byte_eqb_eq in E2. exfalso. apply Hd. rewrite E2. reflexivity.
Qed.

Lemma print_06X_inj x y : 0 <= x < 16 ^ 64 -> 0 <= y < 16 ^ 64 -> print_06X x = print_06X y -> x = y.
Proof.
  intros Hx Hy E. apply (f_equal strip0) in E. rewrite !strip0_06X in E by auto.
  destruct (x =? 0) eqn:Ex; destruct (y =? 0) eqn:Ey; try lia.
  - symmetry in E. apply (f_equal (@rev byte)) in E. rewrite rev_involutive in E. discriminate.
  - apply (f_equal (@rev byte)) in E. rewrite rev_involutive in E. discriminate.
  - apply (f_equal (@rev byte)) in E. rewrite !rev_involutive in E.
    eapply digits_inj with (fuel := 64%nat); eauto; try lia. apply xdigit_inj.
Qed.

Definition is_xdig (c : byte) : bool :=
  match xval c with Some _ => true | None => false end.

Lemma xdigit_is a : 0 <= a < 16 -> is_xdig (xdigit a) = true.
Proof.
  intros H. assert (C : In a (map Z.of_nat (seq 0 16))).
  { apply in_map_iff. exists (Z.to_nat a). split; [lia|]. apply in_seq. lia. }
  simpl in C. repeat (destruct C as [<-|C]; [reflexivity|]). contradiction.
Qed.

Lemma digits_xdig fuel : forall z, 0 <= z -> Forall (fun c => is_xdig c = true) (digits_lsf 16 xdigit fuel z).
Proof.
  induction fuel; intros z Hz; cbn [digits_lsf]; constructor.
  - apply xdigit_is. lia.
  - destruct (z / 16 =? 0); auto. apply IHfuel. lia.
Qed.

Lemma print_06X_xdig z : 0 <= z -> Forall (fun c => is_xdig c = true) (print_06X z).
Proof.
  intros Hz. unfold print_06X. apply Forall_app. split.
  - apply Forall_forall. intros c Hc. apply repeat_spec in Hc. subst. reflexivity.
  - apply Forall_rev. apply digits_xdig. auto.
Qed.

Lemma print_06X_len z : (6 <= length (print_06X z))%nat.
Proof. unfold print_06X. rewrite app_length, repeat_length. lia. Qed.

Lemma print_06X_plain z : 0 <= z -> plain (print_06X z).
Proof.
  intros Hz. split.
  - pose proof (print_06X_len z). destruct (print_06X z) as [|a [|b l]]; simpl in *; auto; lia.
  - intros Hin. pose proof (print_06X_xdig z Hz) as HF. rewrite Forall_forall in HF.
    apply HF in Hin. discriminate.
Qed.

Lemma lit_plain s : is_dot (lit s) = false -> existsb (Byte.eqb slash) (lit s) = false -> plain (lit s).
Proof.
  intros H1 H2. split; auto. intros Hin. assert (existsb (Byte.eqb slash) (lit s) = true).
  { apply existsb_exists. exists slash. split; auto. }
  congruence.
Qed.
Lemma header_plain : plain (lit "header"). Proof. apply lit_plain; reflexivity. Qed.
Lemma attr_plain : plain (lit "attr"). Proof. apply lit_plain; reflexivity. Qed.
Lemma attr2_plain : plain (lit "attr-v2"). Proof. apply lit_plain; reflexivity. Qed.

Lemma data_path_proper base i : 0 <= i -> proper (data_path base i).
Proof. intros. apply proper_join. apply print_06X_plain. auto. Qed.
Lemma header_path_proper base : proper (header_path base).
Proof. apply proper_join, header_plain. Qed.
Lemma attr2_path_proper base : proper (attr2_path base).
Proof. apply proper_join, attr2_plain. Qed.
Lemma attr1_path_proper base : proper (attr1_path base).
Proof. apply proper_join, attr_plain. Qed.

Lemma data_path_inj base i j : 0 <= i < 16 ^ 64 -> 0 <= j < 16 ^ 64 ->
  data_path base i = data_path base j -> i = j.
Proof.
  intros Hi Hj E. apply join_inj in E; try (apply print_06X_plain; lia).
  apply print_06X_inj in E; auto.
Qed.

Lemma data_not_lit base i s : 0 <= i -> plain (lit s) ->
  forallb is_xdig (lit s) = false -> data_path base i <> resolve (path_join base (lit s)).
Proof.
  intros Hi Hp Hx E. apply join_inj in E; auto using print_06X_plain.
  pose proof (print_06X_xdig i Hi) as HF. rewrite E in HF.
  assert (forallb is_xdig (lit s) = true) by (apply forallb_forall; rewrite Forall_forall in HF; auto).
  congruence.
Qed.
Lemma data_not_header base i : 0 <= i -> data_path base i <> header_path base.
Proof. intros. apply data_not_lit; auto using header_plain. Qed.
Lemma data_not_attr2 base i : 0 <= i -> data_path base i <> attr2_path base.
Proof. intros. apply data_not_lit; auto using attr2_plain. Qed.
Lemma data_not_attr1 base i : 0 <= i -> data_path base i <> attr1_path base.
Proof. intros. apply data_not_lit; auto using attr_plain. Qed.
Lemma header_not_attr2 base : header_path base <> attr2_path base.
Proof. intros E. apply join_inj in E; auto using header_plain, attr2_plain. discriminate. Qed.
Lemma header_not_attr1 base : header_path base <> attr1_path base.
Proof. intros E. apply join_inj in E; auto using header_plain, attr_plain. discriminate. Qed.
Lemma attr1_not_attr2 base : attr1_path base <> attr2_path base.
Proof. intros E. apply join_inj in E; auto using attr_plain, attr2_plain. discriminate. Qed.

(* ---------------------------------------------------------- positioned I/O *)
Lemma pwrite_length c pos l : l <> [] -> length (pwrite c pos l) = Nat.max (length c) (pos + length l).
Proof.
  intros H. unfold pwrite. destruct l as [|x l]; [contradiction|].
  rewrite !app_length, firstn_length, app_length, repeat_length, skipn_length. lia.
Qed.

Lemma nth_pwrite c pos l i : nth i (pwrite c pos l) x00 =
  if ((pos <=? i) && (i <? pos + length l))%nat then nth (i - pos) l x00 else nth i c x00.
Proof.
  unfold pwrite. destruct l as [|x l].
  { simpl. replace ((pos <=? i) && (i <? pos + 0))%nat with false by lia. reflexivity. }
  set (l' := x :: l).
  assert (Hl : length (firstn pos (c ++ repeat x00 (pos - length c))) = pos).
  { rewrite firstn_length, app_length, repeat_length. lia. }
  destruct (Nat.ltb_spec i pos).
  - replace ((pos <=? i) && (i <? pos + length l'))%nat with false by lia.
    rewrite app_nth1 by lia.
    destruct (Nat.ltb_spec i (length c)).
    + assert (E : forall (m : bytes) k j, (j < k)%nat -> nth j (firstn k m) x00 = nth j m x00).
      { clear. induction m as [|a m IH]; intros [|k] [|j] H; simpl; auto; try lia. apply IH. lia. }
      rewrite E by auto. apply app_nth1. auto.
    + assert (E : forall (m : bytes) k j, (j < k)%nat -> nth j (firstn k m) x00 = nth j m x00).
      { clear. induction m as [|a m IH]; intros [|k] [|j] H; simpl; auto; try lia. apply IH. lia. }
      rewrite E by auto. rewrite app_nth2 by lia. rewrite nth_repeat.
      symmetry. apply nth_overflow. lia.
  - rewrite app_nth2 by lia. rewrite Hl.
    destruct (Nat.ltb_spec i (pos + length l')).
    + replace ((pos <=? i) && true)%nat with true by lia.
      apply app_nth1. lia.
    + rewrite andb_false_r. rewrite app_nth2 by lia.
      assert (E : forall (m : bytes) k j, nth j (skipn k m) x00 = nth (k + j) m x00).
      { clear. intros m k. revert m. induction k; intros [|a m] j; simpl; auto. destruct j; auto. }
      rewrite E. f_equal. lia.
Qed.

Lemma bytes_ext (a b : bytes) : length a = length b ->
  (forall i, nth i a x00 = nth i b x00) -> a = b.
Proof. intros H1 H2. apply nth_ext with (d := x00) (d' := x00); auto. Qed.

Lemma pwrite_app c pos a b : pwrite (pwrite c pos a) (pos + length a) b = pwrite c pos (a ++ b).
Proof.
  destruct a as [|x a]. { simpl. rewrite Nat.add_0_r. reflexivity. }
  destruct b as [|y b]. { rewrite app_nil_r. reflexivity. }
  apply bytes_ext.
  - rewrite !pwrite_length by discriminate. rewrite !app_length. lia.
  - intros i. rewrite !nth_pwrite. rewrite !app_length.
    repeat match goal with
    | |- context[(?a <=? ?b)%nat] => destruct (Nat.leb_spec a b)
    | |- context[(?a <? ?b)%nat] => destruct (Nat.ltb_spec a b)
    end; cbn [andb]; try lia; auto.
    + rewrite app_nth2 by lia. f_equal. lia.
    + rewrite app_nth1 by lia. reflexivity.
Qed.

Lemma put_row_pwrite f base sizes w r v i q c : home sizes r = Some (i, q) ->
  data_file f base i = Some c -> v <> [] ->
  put_row f base sizes w r v =
  fs_set f (data_path base (Z.of_nat i)) (File (pwrite c (Z.to_nat (q * w)) v)).
Proof.
  intros Hh Hd Hv. unfold put_row. rewrite Hh, Hd. unfold pwrite. destruct v; [contradiction|]. reflexivity.
Qed.
