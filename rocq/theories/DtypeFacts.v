(* Proofs about dtype strings and one-dimensional contiguous conversions. *)
From Coq.Strings Require Import Byte String.
From Coq Require Import List ZArith Lia Bool ZifyBool ZifyNat.
From Verif Require Import Base BaseFacts Dtype Cast Array FS Block Spec ArrayFacts ConvFacts WriteFacts ReadFacts TableFacts.
Import ListNotations.
Open Scope Z_scope.
Ltac Zify.zify_post_hook ::= Z.div_mod_to_equations.

(* ------------------------------------------------------ normalisation *)
Definition order_char (me : endian) (s : bytes) : byte :=
  match s with
  | c :: _ => if Byte.eqb c "<" || Byte.eqb c ">" then c else machine_char me
  | [] => machine_char me
  end.
Definition dtype_body (s : bytes) : bytes :=
  match s with
  | c :: r => if Byte.eqb c "<" || Byte.eqb c ">" || Byte.eqb c "|" || Byte.eqb c "=" then r else s
  | [] => []
  end.

Lemma normalize_spec me s : dtype_normalize me s = order_char me s :: firstn 6 (dtype_body s).
Proof.
  unfold dtype_normalize, order_char, dtype_body. destruct s as [|c r]; [reflexivity|].
  unfold is_order_char.
  destruct (Byte.eqb c "<") eqn:E1; [apply byte_eqb_eq in E1; subst c; reflexivity|].
  destruct (Byte.eqb c ">") eqn:E2; [apply byte_eqb_eq in E2; subst c; reflexivity|].
  destruct (Byte.eqb c "|") eqn:E3; [apply byte_eqb_eq in E3; subst c; reflexivity|].
  destruct (Byte.eqb c "=") eqn:E4; [apply byte_eqb_eq in E4; subst c; reflexivity|].
  cbn [orb]. cbv iota. change (firstn 7 ("="%byte :: firstn 7 (c :: r))) with ("="%byte :: firstn 6 (firstn 7 (c :: r))).
  change (Byte.eqb "=" "=" || Byte.eqb "=" "|") with true. cbv iota. f_equal.
  rewrite firstn_firstn. reflexivity.
Qed.

Lemma order_char_is me s : order_char me s = "<"%byte \/ order_char me s = ">"%byte.
Proof.
  unfold order_char. destruct s as [|c r]; [destruct me; auto|].
  destruct (Byte.eqb c "<") eqn:E1; [apply byte_eqb_eq in E1; subst c; auto|].
  destruct (Byte.eqb c ">") eqn:E2; [apply byte_eqb_eq in E2; subst c; auto|]. destruct me; auto.
Qed.

Lemma normalize_idem me me' s : dtype_normalize me' (dtype_normalize me s) = dtype_normalize me s.
Proof.
  rewrite (normalize_spec me s). set (t := firstn 6 (dtype_body s)).
  assert (Ht : firstn 6 t = t) by (unfold t; rewrite firstn_firstn; reflexivity).
  rewrite normalize_spec.
  destruct (order_char_is me s) as [-> | ->].
  - change (order_char me' ("<"%byte :: t)) with "<"%byte. change (dtype_body ("<"%byte :: t)) with t. rewrite Ht. reflexivity.
  - change (order_char me' (">"%byte :: t)) with ">"%byte. change (dtype_body (">"%byte :: t)) with t. rewrite Ht. reflexivity.
Qed.

Lemma itemsize_normalize me s : itemsize me (dtype_normalize me s) = itemsize me s.
Proof. unfold itemsize. rewrite normalize_idem. reflexivity. Qed.

Lemma dt_ok_normalize me s : 0 < itemsize me s -> dt_ok me (dtype_normalize me s).
Proof. intros H. split; [apply normalize_idem|rewrite itemsize_normalize; auto]. Qed.

(* ------------------------------------------------------ contiguous lines *)
Definition line (me : endian) (x : Z) (d : bytes) (n : Z) : array := mkArray x d [n] [itemsize me d] n.

Lemma line_init me x d n : big_array_init me x d [n] None = Ret (line me x (dtype_normalize me d) n).
Proof.
  unfold big_array_init, line. cbn. rewrite itemsize_normalize. f_equal. f_equal. unfold zprod. simpl. lia.
Qed.

Lemma line_ok me x d n : 0 < n -> array_ok (line me x d n).
Proof. intros. constructor; simpl; auto; try congruence; try (constructor; auto); unfold zprod; simpl; lia. Qed.

Lemma line_addr me x d n k : elem_addr (line me x d n) k = x + k * itemsize me d.
Proof. unfold elem_addr, line. simpl. unfold zprod. simpl. rewrite Z.div_1_r. lia. Qed.

Lemma line_disjoint me x d n : 0 < itemsize me d -> elems_disjoint (elem_addr (line me x d n)) (itemsize me d) 0 n.
Proof. intros H i j Hi Hj. rewrite !line_addr. left. nia. Qed.

Lemma line_in me x d n y : 0 < itemsize me d ->
  in_elems (elem_addr (line me x d n)) (itemsize me d) 0 n y <-> x <= y < x + n * itemsize me d.
Proof.
  intros Hw. split.
  - intros (j & Hj & Hy). rewrite line_addr in Hy. nia.
  - intros Hy. exists ((y - x) / itemsize me d). rewrite line_addr. set (w := itemsize me d) in *.
    pose proof (Z.div_mod (y - x) w ltac:(lia)). pose proof (Z.mod_pos_bound (y - x) w ltac:(lia)).
    assert (0 <= (y - x) / w) by (apply Z.div_pos; lia).
    assert ((y - x) / w < n) by (apply Z.div_lt_upper_bound; lia). split; nia.
Qed.

(* elements held on a line = one load *)
Lemma line_holds_load m me x d : 0 < itemsize me d -> forall vs k,
  Forall (fun v => length v = Z.to_nat (itemsize me d)) vs ->
  (holds m (fun k => x + k * itemsize me d) (itemsize me d) k vs <->
   load m (x + k * itemsize me d) (Z.to_nat (zlen vs * itemsize me d)) = Some (concat vs)).
Proof.
  intros Hw. set (w := itemsize me d) in *.
  induction vs as [|v vs IH]; intros k Hf.
  - split; [reflexivity|]. intros _ j u Hu. destruct j; discriminate.
  - inversion Hf as [|? ? Hv Hf']; subst. rewrite zlen_cons. pose proof (zlen_nonneg vs).
    replace (Z.to_nat ((1 + zlen vs) * w)) with (Z.to_nat w + Z.to_nat (zlen vs * w))%nat by nia.
    specialize (IH (k + 1) Hf'). replace (x + (k + 1) * w) with (x + k * w + Z.of_nat (Z.to_nat w)) in IH by lia. split.
    + intros Hh. apply holds_cons in Hh. destruct Hh as [H1 H2]. cbn [concat].
      apply load_app; auto. apply IH. auto.
    + intros Hl. apply load_split in Hl. destruct Hl as (H1 & H2). cbn [concat] in H1, H2.
      rewrite firstn_app, Hv, Nat.sub_diag, app_nil_r in H1. rewrite (firstn_all2 v) in H1 by lia.
      rewrite skipn_app, Hv, Nat.sub_diag in H2. rewrite (skipn_all2 v) in H2 by lia. cbn [skipn app] in H2.
      apply holds_cons_intro; [exact H1|]. apply IH. auto.
Qed.

Lemma concat_group {A} k n : forall l : list A, (length l <= k * n)%nat -> concat (group k n l) = l.
Proof.
  induction n as [|n IH]; intros l H; cbn [group concat].
  - destruct l; auto. simpl in H. rewrite Nat.mul_0_r in H. lia.
  - rewrite IH; [apply firstn_skipn|]. rewrite skipn_length. lia.
Qed.
Lemma group_length {A} k n : forall l : list A, length (group k n l) = n.
Proof. induction n; intros; simpl; auto. Qed.
Lemma group_widths {A} k n : forall l : list A, length l = (k * n)%nat -> Forall (fun v => length v = k) (group k n l).
Proof.
  induction n as [|n IH]; intros l H; cbn [group]; constructor.
  - rewrite firstn_length. lia.
  - apply IH. rewrite skipn_length. lia.
Qed.

Lemma swap_none me m it (b : bool) : (if b then Ret m else byte_swap me m it 0) = Ret m.
Proof. destruct b; auto. unfold byte_swap. destruct (_ =? 1); reflexivity. Qed.

(* dtype_convert_simple on elements *)
Lemma simple_conv me dm dst dd sm src sd n vs outs :
  0 < itemsize me sd -> 0 < itemsize me dd -> 0 <= n -> zlen vs = n ->
  Forall (fun v => length v = Z.to_nat (itemsize me sd)) vs ->
  load sm src (Z.to_nat (n * itemsize me sd)) = Some (concat vs) ->
  (forall x, dst <= x < dst + n * itemsize me dd -> dm x <> None) ->
  convertible me (dtype_normalize me sd) (dtype_normalize me dd) ->
  Forall2 (converts me (dtype_normalize me sd) (dtype_normalize me dd)) vs outs ->
  exists dm' sm', dtype_convert_simple me dm dst dd sm src sd n = Ret (0, dm', sm') /\
    load dm' dst (Z.to_nat (n * itemsize me dd)) = Some (concat outs) /\
    (forall x, ~ (dst <= x < dst + n * itemsize me dd) -> dm' x = dm x) /\
    (dt_native me (dtype_normalize me sd) = true -> sm' = sm) /\
    (dt_native me (dtype_normalize me sd) = false ->
       load sm' src (Z.to_nat (n * itemsize me sd)) = Some (concat (map (@rev byte) vs)) /\
       forall x, ~ (src <= x < src + n * itemsize me sd) -> sm' x = sm x).
Proof.
  intros Hs Hd Hn Hlen Hw Hl Hm Hc HF. unfold dtype_convert_simple. rewrite !line_init. cbn [bind].
  set (nd := dtype_normalize me dd) in *. set (ns := dtype_normalize me sd) in *.
  assert (Hin : itemsize me nd = itemsize me dd) by apply itemsize_normalize.
  assert (His : itemsize me ns = itemsize me sd) by apply itemsize_normalize.
  assert (Hod : dt_ok me nd) by (apply dt_ok_normalize; auto).
  assert (Hos : dt_ok me ns) by (apply dt_ok_normalize; auto).
  destruct (Z.eq_dec n 0) as [->|Hn0].
  - destruct vs; [|rewrite zlen_cons in Hlen; pose proof (zlen_nonneg vs); lia]. inversion HF; subst. clear HF.
    unfold dtype_convert. cbn [it_arr iter_init].
    change (Z.to_nat 0) with 0%nat. rewrite swap_none. cbn [bind].
    assert (Ec : exists di' si', cast me dm (iter_init me (line me dst nd 0)) sm (iter_init me (line me src ns 0)) 0 = Ret (Some (dm, di', si'))).
    { unfold cast. cbn [it_arr iter_init a_dtype line].
      destruct (bytes_eqb (suffix nd) (suffix ns)) eqn:Eb.
      - destruct (it_contig _ && it_contig _).
        + cbn. eexists _, _. reflexivity.
        + destruct (_ && negb _) eqn:En; [rewrite andb_comm in En; discriminate En|]. cbn. eexists _, _. reflexivity.
      - destruct (cast_table me (suffix nd) (suffix ns)) as [[[sw dw] f]|] eqn:Ect.
        + cbn. eexists _, _. reflexivity.
        + exfalso. destruct Hc as [Hc|Hc]; [rewrite Hc, bytes_eqb_refl in Eb; discriminate|congruence]. }
    destruct Ec as (di' & si' & ->). cbn [bind]. rewrite swap_none. cbn [bind]. exists dm, sm. repeat split; auto.
  - assert (Hnp : 0 < n) by lia.
    assert (Hln : Z.to_nat n = length vs) by (unfold zlen in Hlen; lia). rewrite Hln.
    assert (Hlo : zlen outs = zlen vs) by (unfold zlen; rewrite (Forall2_length HF); reflexivity).
    assert (Hfo : Forall (fun v => length v = Z.to_nat (itemsize me dd)) outs).
    { clear - HF Hin His Hod Hos Hw. revert Hw. induction HF as [|v r vs outs Hvr HF IH]; intros Hw; constructor; inversion Hw; subst; auto.
      rewrite <- Hin. eapply (converts_length me ns nd); eauto. rewrite His. auto. }
    destruct (convert_spec me dm (iter_init me (line me dst nd n)) (line me dst nd n) sm
                (iter_init me (line me src ns n)) (line me src ns n) 0 0 vs outs) as (dm' & di' & sm' & si' & E & A & B & W & Sa);
      auto using line_ok, iter_init_at; cbn [line a_size a_dtype]; try lia.
    + rewrite His. intros j v Hv. rewrite line_addr, His.
      apply (proj2 (line_holds_load sm me src sd Hs vs 0 Hw)); auto.
      rewrite Z.mul_0_l, Z.add_0_r, Hlen. exact Hl.
    + intros x Hx. apply Hm. rewrite <- Hin. rewrite Hlen in Hx. apply line_in in Hx; [|lia]. exact Hx.
    + rewrite Hlen. apply line_disjoint. lia.
    + intros _. rewrite Hlen. apply line_disjoint. lia.
    + rewrite E. cbn [bind]. exists dm', sm'. cbn [a_dtype line] in W, Sa. repeat split; auto.
      * pose proof (wrote_holds _ _ _ _ _ _ W) as Hh.
        replace dst with (dst + 0 * itemsize me dd) by lia. rewrite <- Hlen, <- Hlo.
        apply (line_holds_load dm' me dst dd Hd outs 0 Hfo). rewrite <- Hin.
        intros j v Hv. specialize (Hh j v Hv). rewrite line_addr in Hh. exact Hh.
      * intros x Hx. apply (proj2 W). intros Hi. apply Hx. rewrite Hlo, Hlen in Hi. apply line_in in Hi; [|lia]. rewrite Hin in Hi. exact Hi.
      * intros Hn1. unfold src_after in Sa. cbn [a_dtype line] in Sa. rewrite Hn1 in Sa. exact Sa.
      * unfold src_after in Sa. cbn [a_dtype line] in Sa. rewrite H in Sa.
        pose proof (wrote_holds _ _ _ _ _ _ Sa) as Hh.
        assert (Hz : zlen (map (@rev byte) vs) = n) by (unfold zlen in *; rewrite map_length; lia).
        replace src with (src + 0 * itemsize me sd) by lia. rewrite <- Hz.
        apply (line_holds_load sm' me src sd Hs).
        -- clear - Hw. induction Hw; cbn [map]; constructor; auto. rewrite rev_length. auto.
        -- rewrite <- His. intros j v Hv. specialize (Hh j v Hv). rewrite line_addr in Hh. exact Hh.
      * intros x Hx. unfold src_after in Sa. cbn [a_dtype line] in Sa. rewrite H in Sa. apply (proj2 Sa).
        assert (Hz : zlen (map (@rev byte) vs) = n) by (unfold zlen in *; rewrite map_length; lia).
        intros Hi. apply Hx. rewrite Hz in Hi. apply line_in in Hi; [|lia]. rewrite His in Hi. exact Hi.
Qed.

Lemma reorder_invol me d v : reorder me d (reorder me d v) = v.
Proof. unfold reorder. destruct (dt_native me d); auto. apply rev_involutive. Qed.

Lemma converts_same me d v : converts me d d v v.
Proof. unfold converts, conv_elem. rewrite bytes_eqb_refl, reorder_invol. reflexivity. Qed.

Lemma simple_same me dm dst dd sm src sd n v :
  0 < itemsize me sd -> dtype_normalize me dd = dtype_normalize me sd -> 0 <= n ->
  load sm src (Z.to_nat (n * itemsize me sd)) = Some v ->
  (forall x, dst <= x < dst + n * itemsize me sd -> dm x <> None) ->
  exists dm' sm', dtype_convert_simple me dm dst dd sm src sd n = Ret (0, dm', sm') /\
    load dm' dst (Z.to_nat (n * itemsize me sd)) = Some v /\
    (forall x, ~ (dst <= x < dst + n * itemsize me sd) -> dm' x = dm x) /\
    (dt_native me (dtype_normalize me sd) = true -> sm' = sm).
Proof.
  intros Hs He Hn Hl Hm.
  assert (Hi : itemsize me dd = itemsize me sd) by (rewrite <- (itemsize_normalize me dd), He; apply itemsize_normalize).
  pose proof (load_length _ _ _ _ Hl) as Hlv.
  set (w := Z.to_nat (itemsize me sd)) in *.
  assert (Hlw : length v = (w * Z.to_nat n)%nat) by nia.
  assert (Hcg : concat (group w (Z.to_nat n) v) = v) by (apply concat_group; lia).
  destruct (simple_conv me dm dst dd sm src sd n (group w (Z.to_nat n) v) (group w (Z.to_nat n) v)) as (dm' & sm' & E & A & B & C & _); auto; try lia.
  - unfold zlen. rewrite group_length. lia.
  - apply group_widths. auto.
  - rewrite Hcg. exact Hl.
  - rewrite Hi. auto.
  - left. rewrite He. reflexivity.
  - rewrite He. generalize (group w (Z.to_nat n) v). induction l; constructor; auto. apply converts_same.
  - exists dm', sm'. rewrite Hi, Hcg in *. auto.
Qed.
