(* Facts about record types. *)
From Coq.Strings Require Import Byte String.
From Coq Require Import List ZArith Lia Bool ZifyBool ZifyNat.
From Verif Require Import Base BaseFacts Dtype Cast Array FS Fmt Attr Block File Record RecSpec.
Import ListNotations.
Open Scope Z_scope.
Ltac Zify.zify_post_hook ::= Z.div_mod_to_equations.

Lemma width_nonneg me fd : field_ok me fd -> 0 <= width me fd.
Proof. intros (_ & _ & H1 & H2). unfold width. nia. Qed.
Lemma widths_nonneg me fl : Forall (field_ok me) fl -> 0 <= zsum (map (width me) fl).
Proof. induction 1; cbn; [lia|]. pose proof (width_nonneg _ _ H). unfold zsum in *. lia. Qed.

Definition completes (me : endian) (off : Z) (fd fd' : rfield) : Prop :=
  rf_name fd' = rf_name fd /\ rf_dtype fd' = rf_dtype fd /\ rf_nmemb fd' = rf_nmemb fd /\
  rf_elsize fd' = itemsize me (rf_dtype fd) /\ rf_offset fd' = off.

Lemma complete_loop_spec me : forall fl off, Forall (field_ok me) fl -> 0 <= off -> off + zsum (map (width me) fl) < 2 ^ 31 ->
  exists fl', complete_loop me fl off = Ret (fl', off + zsum (map (width me) fl)) /\ length fl' = length fl /\
    forall k fd, nth_error fl k = Some fd -> exists fd', nth_error fl' k = Some fd' /\
      completes me (off + zsum (map (width me) (firstn k fl))) fd fd'.
Proof.
  induction fl as [|fd fl IH]; intros off Hok H0 Hs.
  - exists []. cbn. split; [f_equal; f_equal; lia|]. split; auto. intros [|k] fd H; discriminate H.
  - inversion Hok as [|x y H1 H2]; subst. pose proof (width_nonneg _ _ H1) as Hw. pose proof (widths_nonneg _ _ H2) as Hws.
    pose proof H1 as (Hn & Hl & Hi & Hm). cbn [map] in *. unfold zsum in *. cbn [fold_right] in *. fold (zsum (map (width me) fl)) in *.
    destruct (IH (off + width me fd)) as (fl' & E & L & N); auto; try lia.
    cbn [complete_loop]. destruct (rf_name fd) as [nm|] eqn:En; [|congruence].
    unfold field_dtype. replace (length (rf_dtype fd) <? 8)%nat with true by (symmetry; apply Nat.ltb_lt; auto). cbn [bind].
    fold (width me fd). replace ((2 ^ 31 <=? Z.abs (width me fd)) || (2 ^ 31 <=? Z.abs (off + width me fd))) with false by lia.
    rewrite E. cbn [bind]. eexists. split; [f_equal; f_equal; lia|]. split; [cbn; lia|].
    intros [|k] fd0 Hk; cbn [nth_error] in *.
    + injection Hk as <-. eexists. split; [reflexivity|]. unfold completes. cbn. repeat split; auto. lia.
    + destruct (N k fd0 Hk) as (fd' & A & B). exists fd'. split; auto. unfold completes in *. cbn [firstn map fold_right].
      destruct B as (B1 & B2 & B3 & B4 & B5). unfold zsum in B5. repeat split; auto. lia.
Qed.

Lemma complete_spec me rt : Forall (field_ok me) (rt_fields rt) -> zsum (map (width me) (rt_fields rt)) < 2 ^ 31 ->
  exists rt', rtype_complete me rt = Ret rt' /\ rt_itemsize rt' = zsum (map (width me) (rt_fields rt)) /\
    length (rt_fields rt') = length (rt_fields rt) /\
    forall k fd, nth_error (rt_fields rt) k = Some fd -> exists fd', nth_error (rt_fields rt') k = Some fd' /\
      completes me (zsum (map (width me) (firstn k (rt_fields rt)))) fd fd'.
Proof.
  intros Hok Hs. destruct (complete_loop_spec me (rt_fields rt) 0 Hok ltac:(lia) ltac:(lia)) as (fl' & E & L & N).
  unfold rtype_complete. rewrite E. cbn [bind]. eexists. split; [reflexivity|]. cbn [rt_itemsize rt_fields].
  split; [lia|]. split; [exact L|]. intros k fd Hk. destruct (N k fd Hk) as (fd' & A & B). exists fd'. split; auto.
Qed.

(* The layout of a completed record type, said of the type alone. *)
Lemma completes_widths me fl fl' : length fl' = length fl ->
  (forall k fd, nth_error fl k = Some fd -> exists fd', nth_error fl' k = Some fd' /\ rf_elsize fd' * rf_nmemb fd' = width me fd) ->
  map (fun fd => rf_elsize fd * rf_nmemb fd) fl' = map (width me) fl.
Proof.
  revert fl'. induction fl as [|fd fl IH]; intros [|fd' fl'] L N; try discriminate L; auto. cbn [map]. f_equal.
  - destruct (N 0%nat fd eq_refl) as (x & Hx & Ex). injection Hx as <-. auto.
  - apply IH; [injection L; auto|]. intros k f0 Hk. exact (N (S k) f0 Hk).
Qed.

Lemma complete_packed me rt : Forall (field_ok me) (rt_fields rt) -> zsum (map (width me) (rt_fields rt)) < 2 ^ 31 ->
  exists rt', rtype_complete me rt = Ret rt' /\ packed rt' /\ length (rt_fields rt') = length (rt_fields rt) /\
    forall k fd, nth_error (rt_fields rt) k = Some fd -> exists fd', nth_error (rt_fields rt') k = Some fd' /\
      rf_name fd' = rf_name fd /\ rf_dtype fd' = rf_dtype fd /\ rf_nmemb fd' = rf_nmemb fd /\ rf_elsize fd' = itemsize me (rf_dtype fd).
Proof.
  intros Hok Hs. destruct (complete_spec me rt Hok Hs) as (rt' & E & I & L & N). exists rt'. split; [exact E|].
  assert (HW : map (fun fd => rf_elsize fd * rf_nmemb fd) (rt_fields rt') = map (width me) (rt_fields rt)).
  { apply completes_widths; auto. intros k fd Hk. destruct (N k fd Hk) as (fd' & A & (_ & _ & B3 & B4 & _)). exists fd'. split; auto.
    unfold width. rewrite B3, B4. reflexivity. }
  split; [|split; [exact L|]].
  - constructor.
    + rewrite I, HW. reflexivity.
    + apply Forall_forall. intros fd' Hin. assert (Hm : In (rf_elsize fd' * rf_nmemb fd') (map (width me) (rt_fields rt))).
      { rewrite <- HW. apply in_map_iff. exists fd'. auto. }
      apply in_map_iff in Hm. destruct Hm as (fd & <- & Hf). apply width_nonneg. rewrite Forall_forall in Hok. auto.
    + intros k fd' Hk. destruct (nth_error (rt_fields rt) k) as [fd|] eqn:Ek.
      2:{ apply nth_error_None in Ek. assert (k < length (rt_fields rt'))%nat by (apply nth_error_Some; congruence). lia. }
      destruct (N k fd Ek) as (x & Hx & (_ & _ & _ & _ & B)). rewrite Hk in Hx. injection Hx as <-. rewrite B.
      rewrite <- !firstn_map. rewrite HW. reflexivity.
  - intros k fd Hk. destruct (N k fd Hk) as (fd' & A & (B1 & B2 & B3 & B4 & _)). exists fd'. auto.
Qed.

(* ---------------------------------------------------------------- add *)
Lemma add_spec rt name dtype nmemb : exists fd, rtype_add rt name dtype nmemb =
    Ret (zlen (rt_fields rt), mkRtype (rt_fields rt ++ [fd]) (rt_itemsize rt)) /\
  rf_name fd = Some (strdup name) /\ rf_dtype fd = firstn 8 dtype /\ rf_nmemb fd = nmemb.
Proof.
  unfold rtype_add, rtype_set. pose proof (zlen_nonneg (rt_fields rt)). replace (zlen (rt_fields rt) <? 0) with false by lia.
  rewrite Z.leb_refl. unfold zlen. replace (Z.to_nat (Z.of_nat (length (rt_fields rt)) + 1) - length (rt_fields rt))%nat with 1%nat by lia.
  rewrite Nat2Z.id. cbn [bind repeat]. eexists. split; [f_equal; f_equal; f_equal|].
  - generalize (rt_fields rt). intros l. instantiate (1 := mkField (Some (strdup name)) (firstn 8 dtype) nmemb 0 0).
    assert (Hn : nth (length l) (l ++ [null_field]) null_field = null_field) by (rewrite app_nth2, Nat.sub_diag by lia; reflexivity).
    rewrite Hn. cbn [rf_offset rf_elsize null_field]. clear Hn. generalize (mkField (Some (strdup name)) (firstn 8 dtype) nmemb 0 0). intros x.
    induction l as [|y l IH]; cbn; auto. f_equal. exact IH.
  - cbn. auto.
Qed.
Lemma set_spec rt i name dtype nmemb : 0 <= i < zlen (rt_fields rt) -> exists fd, rtype_set rt i name dtype nmemb =
    Ret (mkRtype (upd (rt_fields rt) (Z.to_nat i) fd) (rt_itemsize rt)) /\
  rf_name fd = Some (strdup name) /\ rf_dtype fd = firstn 8 dtype /\ rf_nmemb fd = nmemb.
Proof.
  intros Hi. unfold rtype_set. replace (i <? 0) with false by lia. replace (zlen (rt_fields rt) <=? i) with false by lia.
  eexists. split; [reflexivity|]. cbn. auto.
Qed.

(* ---------------------------------------------------------------- set, get *)
(* The bytes of field fd of row i. *)

Lemma zsum_firstn_le (g : rfield -> Z) : forall fl k, Forall (fun fd => 0 <= g fd) fl -> 0 <= zsum (map g (firstn k fl)) <= zsum (map g fl).
Proof.
  induction fl as [|fd fl IH]; intros [|k] H; cbn; try lia; inversion H as [|x y H2 H3]; subst.
  - specialize (IH 0%nat H3). unfold zsum in *. cbn in *. lia.
  - specialize (IH k H3). unfold zsum in *. lia.
Qed.
Lemma zsum_firstn_S (g : rfield -> Z) : forall fl k fd, nth_error fl k = Some fd ->
  zsum (map g (firstn (S k) fl)) = zsum (map g (firstn k fl)) + g fd.
Proof.
  induction fl as [|x fl IH]; intros [|k] fd H; try discriminate H.
  - injection H as <-. cbn. lia.
  - specialize (IH k fd H). cbn [firstn map] in *. unfold zsum in *. cbn [fold_right] in *. lia.
Qed.
Lemma zsum_firstn_mono (g : rfield -> Z) fl j k : Forall (fun fd => 0 <= g fd) fl -> (j <= k)%nat ->
  zsum (map g (firstn j fl)) <= zsum (map g (firstn k fl)).
Proof.
  intros H Hjk. rewrite <- (firstn_skipn j (firstn k fl)). rewrite firstn_firstn, Nat.min_l by auto. rewrite map_app, zsum_app.
  assert (0 <= zsum (map g (skipn j (firstn k fl)))); [|lia].
  assert (HF : Forall (fun fd => 0 <= g fd) (skipn j (firstn k fl))).
  { rewrite Forall_forall in *. intros x Hx. apply H. rewrite <- (firstn_skipn k fl). apply in_or_app. left.
    rewrite <- (firstn_skipn j (firstn k fl)). apply in_or_app. right. auto. }
  revert HF. generalize (skipn j (firstn k fl)). induction 1; cbn; [lia|]. unfold zsum in *. lia.
Qed.

Lemma packed_field rt k fd : packed rt -> nth_error (rt_fields rt) k = Some fd ->
  0 <= rf_offset fd /\ 0 <= fwidth fd /\ rf_offset fd + fwidth fd <= rt_itemsize rt.
Proof.
  intros [P1 P2 P3] Hk. rewrite (P3 k fd Hk), P1. fold (fwidth fd).
  pose proof (zsum_firstn_S fwidth _ _ _ Hk) as S1. pose proof (zsum_firstn_le fwidth (rt_fields rt) k P2).
  pose proof (zsum_firstn_le fwidth (rt_fields rt) (S k) P2). unfold fwidth in *.
  rewrite Forall_forall in P2. pose proof (P2 fd (nth_error_In _ _ Hk)). cbv beta in *. lia.
Qed.
Lemma packed_order rt j k fd fd' : packed rt -> (j < k)%nat -> nth_error (rt_fields rt) j = Some fd -> nth_error (rt_fields rt) k = Some fd' ->
  rf_offset fd + fwidth fd <= rf_offset fd'.
Proof.
  intros [P1 P2 P3] Hjk Hj Hk. rewrite (P3 j fd Hj), (P3 k fd' Hk).
  pose proof (zsum_firstn_S fwidth _ _ _ Hj) as S1. pose proof (zsum_firstn_mono fwidth (rt_fields rt) (S j) k P2 ltac:(lia)).
  unfold fwidth in *. lia.
Qed.

(* different slots do not overlap *)
Lemma slots_disjoint rt buf i i' c c' fd fd' : packed rt -> nth_error (rt_fields rt) c = Some fd -> nth_error (rt_fields rt) c' = Some fd' ->
  (i, c) <> (i', c') ->
  slot rt buf i fd + fwidth fd <= slot rt buf i' fd' \/ slot rt buf i' fd' + fwidth fd' <= slot rt buf i fd.
Proof.
  intros P Hc Hc' Hne. unfold slot. destruct (packed_field _ _ _ P Hc) as (A1 & A2 & A3). destruct (packed_field _ _ _ P Hc') as (B1 & B2 & B3).
  destruct (Z.lt_trichotomy i i') as [H|[->|H]].
  - left. nia.
  - destruct (Nat.lt_trichotomy c c') as [H|[->|H]].
    + pose proof (packed_order _ _ _ _ _ P H Hc Hc'). lia.
    + congruence.
    + pose proof (packed_order _ _ _ _ _ P H Hc' Hc). lia.
  - right. nia.
Qed.

Lemma the_field_nth rt c fd : nth_error (rt_fields rt) c = Some fd -> the_field rt (Z.of_nat c) = Ret fd.
Proof. intros H. unfold the_field, znth. replace (Z.of_nat c <? 0) with false by lia. rewrite Nat2Z.id, H. reflexivity. Qed.

Lemma record_set_spec rt m buf i c fd data l : packed rt -> nth_error (rt_fields rt) c = Some fd ->
  load m data (Z.to_nat (fwidth fd)) = Some l ->
  (forall x, slot rt buf i fd <= x < slot rt buf i fd + fwidth fd -> m x <> None) ->
  exists m', record_set rt m buf i (Z.of_nat c) data = Ret m' /\
    load m' (slot rt buf i fd) (Z.to_nat (fwidth fd)) = Some l /\
    forall x, ~ (slot rt buf i fd <= x < slot rt buf i fd + fwidth fd) -> m' x = m x.
Proof.
  intros P Hc Hl Hm. destruct (packed_field _ _ _ P Hc) as (_ & Hw & _). unfold record_set. rewrite (the_field_nth _ _ _ Hc). cbn [bind].
  fold (fwidth fd). replace (fwidth fd <? 0) with false by lia. rewrite Hl. cbn [or_ub bind].
  replace (buf + (i * rt_itemsize rt + rf_offset fd)) with (slot rt buf i fd) by (unfold slot; lia).
  pose proof (load_length _ _ _ _ Hl) as Ll.
  destruct (store_some l m (slot rt buf i fd)) as (m' & E). { intros k Hk. apply Hm. lia. }
  rewrite E. exists m'. split; [reflexivity|]. split.
  - rewrite <- Ll. eapply load_store_same; eauto.
  - intros x Hx. eapply store_frame; eauto. unfold zlen. lia.
Qed.

Lemma record_get_spec rt m buf i c fd data l : packed rt -> nth_error (rt_fields rt) c = Some fd ->
  load m (slot rt buf i fd) (Z.to_nat (fwidth fd)) = Some l ->
  (forall x, data <= x < data + fwidth fd -> m x <> None) ->
  exists m', record_get rt m buf i (Z.of_nat c) data = Ret m' /\
    load m' data (Z.to_nat (fwidth fd)) = Some l /\
    forall x, ~ (data <= x < data + fwidth fd) -> m' x = m x.
Proof.
  intros P Hc Hl Hm. destruct (packed_field _ _ _ P Hc) as (_ & Hw & _). unfold record_get. rewrite (the_field_nth _ _ _ Hc). cbn [bind].
  fold (fwidth fd). replace (fwidth fd <? 0) with false by lia.
  replace (buf + (i * rt_itemsize rt + rf_offset fd)) with (slot rt buf i fd) by (unfold slot; lia).
  rewrite Hl. cbn [or_ub bind]. pose proof (load_length _ _ _ _ Hl) as Ll.
  destruct (store_some l m data) as (m' & E). { intros k Hk. apply Hm. lia. }
  rewrite E. exists m'. split; [reflexivity|]. split.
  - rewrite <- Ll. eapply load_store_same; eauto.
  - intros x Hx. eapply store_frame; eauto. unfold zlen. lia.
Qed.

Lemma record_set_others rt m m' buf i c fd i' c' fd' : packed rt -> nth_error (rt_fields rt) c = Some fd -> nth_error (rt_fields rt) c' = Some fd' ->
  (i, c) <> (i', c') ->
  (forall x, ~ (slot rt buf i fd <= x < slot rt buf i fd + fwidth fd) -> m' x = m x) ->
  load m' (slot rt buf i' fd') (Z.to_nat (fwidth fd')) = load m (slot rt buf i' fd') (Z.to_nat (fwidth fd')).
Proof.
  intros P Hc Hc' Hne Hf. destruct (packed_field _ _ _ P Hc') as (_ & Hw & _). apply load_ext. intros k Hk. apply Hf.
  destruct (slots_disjoint rt buf i i' c c' fd fd' P Hc Hc' Hne); lia.
Qed.
