(* Facts about the partition and about reading into a new array. *)
From Coq.Strings Require Import Byte String.
From Coq Require Import List ZArith Lia Bool ZifyBool ZifyNat.
From Verif Require Import Base BaseFacts Dtype Cast Array FS Fmt Attr Block Spec SeekFacts ArrayFacts ConvFacts WriteFacts ReadFacts
  IOFacts DtypeFacts Split.
Import ListNotations.
Open Scope Z_scope.
Ltac Zify.zify_post_hook ::= Z.div_mod_to_equations.

(* ------------------------------------------------------------------ partition *)
Lemma map_sum_telescope (g : Z -> Z) k : zsum (map (fun i => g (Z.of_nat i + 1) - g (Z.of_nat i)) (seq 0 k)) = g (Z.of_nat k) - g 0.
Proof.
  induction k as [|k IH]; [cbn; lia|]. rewrite seq_S, map_app, zsum_app, IH. cbn [map plus]. unfold zsum at 1. cbn [fold_right].
  replace (Z.of_nat (S k)) with (Z.of_nat k + 1) by lia. lia.
Qed.
Lemma step_bounds size n i : 0 <= size -> 0 < n -> size / n <= size * (i + 1) / n - size * i / n <= size / n + 1.
Proof.
  intros Hs Hn. pose proof (Z.div_mod size n ltac:(lia)). pose proof (Z.div_mod (size * (i + 1)) n ltac:(lia)). pose proof (Z.div_mod (size * i) n ltac:(lia)).
  pose proof (Z.mod_pos_bound size n Hn). pose proof (Z.mod_pos_bound (size * (i + 1)) n Hn). pose proof (Z.mod_pos_bound (size * i) n Hn).
  set (a := size / n) in *. set (b := size * (i + 1) / n) in *. set (c := size * i / n) in *.
  assert (n * (b - c) = n * a + size mod n + (size * i) mod n - (size * (i + 1)) mod n) by nia. split; nia.
Qed.
Lemma entry_plain size n i : 0 <= i < n -> 0 <= size -> size * n < 2 ^ 64 ->
  split_entry size n i = size * (i + 1) / n - size * i / n.
Proof.
  intros Hi Hs Hb. unfold split_entry, u64. pose proof (step_bounds size n i Hs ltac:(lia)) as SB.
  assert (0 <= size * i <= size * n) by nia. assert (0 <= size * (i + 1) <= size * n) by nia.
  rewrite !(Z.mod_small (size * _)) by lia. apply Z.mod_small.
  assert (0 <= size / n <= size) by (split; [apply Z.div_pos; lia|apply Z.div_le_upper_bound; nia]).
  split; [lia|]. assert (size * (i + 1) / n <= size) by (apply Z.div_le_upper_bound; nia).
  assert (0 <= size * i / n) by (apply Z.div_pos; lia). assert (size < 2 ^ 64) by nia. lia.
Qed.
Lemma np_entry_plain size n i : 0 <= i < n -> 0 <= size -> size * n < 2 ^ 63 ->
  np_entry size n i = size * (i + 1) / n - size * i / n.
Proof.
  intros Hi Hs Hb. unfold np_entry. rewrite (Z.mul_comm (i + 1)), (Z.mul_comm i).
  assert (0 <= size * i <= size * n) by nia. assert (0 <= size * (i + 1) <= size * n) by nia.
  assert (Hsm : forall x, 0 <= x < 2 ^ 63 -> s64 x = x) by (intros x Hx; apply s64_id; lia).
  rewrite (Hsm (size * (i + 1))), (Hsm (size * i)) by lia. apply Hsm.
  pose proof (step_bounds size n i Hs ltac:(lia)) as SB.
  assert (0 <= size / n <= size) by (split; [apply Z.div_pos; lia|apply Z.div_le_upper_bound; nia]).
  assert (size * (i + 1) / n <= size) by (apply Z.div_le_upper_bound; nia).
  assert (0 <= size * i / n) by (apply Z.div_pos; lia). assert (size < 2 ^ 63) by nia. lia.
Qed.

Definition even (size n : Z) (l : list Z) : Prop :=
  zlen l = n /\ zsum l = size /\ Forall (fun s => s = size / n \/ s = size / n + 1) l.

Lemma split_gen (entry : Z -> Z -> Z -> Z) size n :
  (forall i, 0 <= i < n -> entry size n i = size * (i + 1) / n - size * i / n) -> 0 < n -> 0 <= size ->
  even size n (map (fun i => entry size n (Z.of_nat i)) (seq 0 (Z.to_nat n))).
Proof.
  intros He Hn Hs.
  assert (E : map (fun i => entry size n (Z.of_nat i)) (seq 0 (Z.to_nat n)) =
              map (fun i => size * (Z.of_nat i + 1) / n - size * (Z.of_nat i) / n) (seq 0 (Z.to_nat n))).
  { apply map_ext_in. intros i Hi. apply in_seq in Hi. apply He. lia. }
  rewrite E. split; [|split].
  - unfold zlen. rewrite map_length, seq_length. lia.
  - rewrite (map_sum_telescope (fun k => size * k / n)). rewrite Z2Nat.id by lia. rewrite Z.div_mul by lia. rewrite Z.mul_0_r. cbn. lia.
  - apply Forall_forall. intros s Hin. apply in_map_iff in Hin. destruct Hin as (i & <- & Hi).
    pose proof (step_bounds size n (Z.of_nat i) Hs Hn). lia.
Qed.
Lemma split_even size n : 0 < n -> 0 <= size -> size * n < 2 ^ 64 -> even size n (even_split size n).
Proof. intros. apply (split_gen split_entry); auto. intros. apply entry_plain; auto. Qed.
Lemma np_split_even size n : 0 < n -> 0 <= size -> size * n < 2 ^ 63 -> even size n (np_split size n).
Proof. intros. apply (split_gen np_entry); auto. intros. apply np_entry_plain; auto. Qed.

(* ------------------------------------------------------------------ read_simple *)
Lemma simple_array me d n nm : dt_ok me (dtype_normalize me d) ->
  big_array_init me 0 d [n; nm] None =
    Ret (mkArray 0 (dtype_normalize me d) [n; nm] [itemsize me d * nm; itemsize me d] (n * nm)).
Proof. intros _. unfold big_array_init. cbn. f_equal. f_equal. unfold zprod. simpl. lia. Qed.

Lemma read_simple_spec e sizes w f b start n d es outs : let m := Z.min n (zsum sizes - start) in
  wblock e b sizes w -> w <= e_chunk e -> w < 2 ^ 31 ->
  0 <= start <= zsum sizes -> 0 <= n -> start + n < 2 ^ 63 ->
  dt_ok (e_me e) (dtype_normalize (e_me e) d) -> convertible (e_me e) (b_dtype b) (dtype_normalize (e_me e) d) ->
  zlen es = m * b_nmemb b ->
  Forall (fun v => length v = Z.to_nat (itemsize (e_me e) (b_dtype b))) es ->
  (forall j v, nth_error (rows_of (b_nmemb b) m es) j = Some v -> stored_row f (b_base b) sizes w (start + Z.of_nat j) = Some v) ->
  Forall2 (converts (e_me e) (b_dtype b) (dtype_normalize (e_me e) d)) es outs ->
  exists a um', big_block_read_simple e f b start n (Some d) = Ret (0, Some (a, um')) /\
    a_data a = 0 /\ a_dtype a = dtype_normalize (e_me e) d /\ a_dims a = [m; b_nmemb b] /\
    holds um' (fun k => k * itemsize (e_me e) d) (itemsize (e_me e) d) 0 outs.
Proof.
  intros m HW Hc H31 Hst Hn Hov Hd Hcv Les Wes Hrows HF.
  pose proof (wb_layout _ _ _ _ HW) as HL. pose proof (wb_nmemb _ _ _ _ HW) as Hnm. pose proof (hl_size _ _ HL) as Hsz. pose proof (zsum_range _ _ HL) as Hsm.
  unfold big_block_read_simple.
  destruct (proj1 (seek_spec b sizes (mkPtr 0 0 0) start HL ltac:(lia)) Hst) as (p & Ep & Pp). rewrite Ep. cbn [bind]. rewrite Z.eqb_refl. cbn [negb].
  assert (Hs1 : s64 (start + n) = start + n) by (apply s64_id; lia).
  assert (Hu1 : u64 (start + n) = start + n) by (apply Z.mod_small; lia).
  assert (Hs2 : s64 (b_size b - start) = b_size b - start) by (apply s64_id; lia).
  rewrite Hs1, Hu1, Hs2, Hsz.
  replace (if zsum sizes <? start + n then zsum sizes - start else n) with m by (unfold m; destruct (zsum sizes <? start + n) eqn:E; lia).
  replace (m <? 0) with false by lia. rewrite simple_array by auto. cbn [bind].
  rewrite <- (itemsize_normalize (e_me e) d).
  set (a := mkArray 0 (dtype_normalize (e_me e) d) [m; b_nmemb b] _ _). set (um := malloc_mem 0 _).
  set (dt := dtype_normalize (e_me e) d) in *. set (isz := itemsize (e_me e) dt) in *.
  assert (Hisz : 0 < isz) by apply Hd.
  destruct (Z.eq_dec m 0) as [Em|Hm].
  - (* nothing to read *)
    assert (E0 : es = []) by (destruct es; auto; unfold zlen in Les; cbn in Les; lia). subst es. inversion HF; subst outs.
    assert (ER : big_block_read e f b p a um = Ret (0, p, um)).
    { unfold big_block_read. rewrite (wb_felsize _ _ _ _ HW). pose proof (wb_wpos _ _ _ _ HW).
      replace (2 ^ 31 <=? Z.abs w) with false by lia. replace (w =? 0) with false by lia. cbv zeta.
      rewrite (chunk_array_init (e_me e) b) by apply HW. cbn [bind].
      assert (Hz : a_size a / row_nmemb b = 0) by (unfold a; cbn [a_size]; rewrite Em; reflexivity). rewrite Hz.
      rewrite (ptr_offset _ _ _ _ HL Pp). cbn [or_ub bind].
      assert (Hpa := pa_abs _ _ _ Pp). rewrite Z.add_0_r, Hpa.
      replace (s64 start) with start by (symmetry; apply s64_id; lia).
      replace (u64 start) with start by (symmetry; apply Z.mod_small; lia).
      replace (b_size b <? start) with false by lia. reflexivity. }
    rewrite ER. cbn [bind]. rewrite Z.eqb_refl. cbn [negb]. exists a, um. split; [reflexivity|].
    split; [reflexivity|]. split; [reflexivity|]. split; [reflexivity|]. intros j v Hj. destruct j; discriminate Hj.
  - assert (Ha : array_ok a).
    { constructor; unfold a; cbn [a_strides a_dims a_size length]; auto; [discriminate|repeat constructor; lia|]. unfold zprod. simpl. lia. }
    assert (Hct : contig_of (e_me e) a = true).
    { unfold contig_of, elsize_of, a. cbn [a_dtype a_dims a_strides rev app contig_check].
      unfold isz. rewrite !Z.eqb_refl. reflexivity. }
    assert (Hadr : forall k, 0 <= k < a_size a -> elem_addr a k = k * isz).
    { intros k Hk. rewrite (elem_addr_contig (e_me e) a k Ha Hct Hk). unfold a, elsize_of. cbn [a_data a_dtype]. fold isz. lia. }
    assert (Hasz : a_size a = m * b_nmemb b) by reflexivity.
    destruct (read_spec e sizes w a f b p um start es outs m) as (p' & um' & E & P' & [W1 W2]); auto.
    + rewrite Hasz. rewrite Z.div_mul by lia. reflexivity.
    + intros x (j & Hj & Hx). rewrite Les in Hj. rewrite Hadr in Hx by lia. unfold um, malloc_mem.
      unfold a in Hx. cbn [a_dtype] in Hx. fold isz in Hx.
      assert (0 <= x < m * isz * b_nmemb b) by nia.
      replace (0 <=? x) with true by lia. replace (x <? 0 + m * isz * b_nmemb b) with true by lia. discriminate.
    + intros i j Hi Hj. rewrite Les in Hj. rewrite !Hadr by lia. unfold a. cbn [a_dtype]. fold isz. left. nia.
    + lia.
    + rewrite E. cbn [bind]. rewrite Z.eqb_refl. cbn [negb]. exists a, um'. split; [reflexivity|].
      split; [reflexivity|]. split; [reflexivity|]. split; [reflexivity|].
      intros j v Hj. specialize (W1 j v Hj). rewrite Z.add_0_l in *.
      assert (Hjl : Z.of_nat j < zlen outs).
      { assert (j < length outs)%nat by (apply nth_error_Some; rewrite Hj; discriminate). unfold zlen. lia. }
      assert (Hlo : zlen outs = zlen es) by (unfold zlen; rewrite (Forall2_length HF); reflexivity).
      rewrite Hadr in W1 by lia. exact W1.
Qed.

(* What happens for a negative start: exactly n = -start rows can be read. *)
Lemma read_simple_negative e sizes w f b start n d : wblock e b sizes w -> w < 2 ^ 31 ->
  - zsum sizes <= start < 0 -> 0 < n -> n < 2 ^ 62 -> zsum sizes < 2 ^ 62 -> n <> - start ->
  dt_ok (e_me e) (dtype_normalize (e_me e) d) ->
  big_block_read_simple e f b start n (Some d) = Ret (-1, None).
Proof.
  intros HW H31 Hst Hn Hn2 Hz2 Hne Hd.
  pose proof (wb_layout _ _ _ _ HW) as HL. pose proof (wb_nmemb _ _ _ _ HW) as Hnm. pose proof (hl_size _ _ HL) as Hsz. pose proof (zsum_range _ _ HL) as Hsm.
  unfold big_block_read_simple.
  destruct (proj1 (proj2 (seek_spec b sizes (mkPtr 0 0 0) start HL ltac:(lia))) Hst) as (p & Ep & Pp). rewrite Ep. cbn [bind]. rewrite Z.eqb_refl. cbn [negb].
  assert (Hs1 : s64 (start + n) = start + n) by (apply s64_id; lia).
  assert (Hs2 : s64 (b_size b - start) = b_size b - start) by (apply s64_id; lia).
  rewrite Hs1, Hs2.
  set (m := if b_size b <? u64 (start + n) then b_size b - start else n).
  assert (Hm : m > - start /\ m < 2 ^ 63).
  { unfold m. destruct (Z_lt_dec (start + n) 0) as [Hneg|Hpos].
    - assert (Hu : u64 (start + n) = start + n + 2 ^ 64).
      { unfold u64. rewrite <- (Z_mod_plus_full _ 1). apply Z.mod_small. lia. }
      rewrite Hu. replace (b_size b <? start + n + 2 ^ 64) with true by lia. lia.
    - assert (Hu : u64 (start + n) = start + n) by (apply Z.mod_small; lia). rewrite Hu.
      destruct (b_size b <? start + n) eqn:E; lia. }
  replace (m <? 0) with false by lia. rewrite simple_array by auto. cbn [bind].
  set (a := mkArray 0 _ _ _ _). set (um := malloc_mem 0 _).
  assert (ER : big_block_read e f b p a um = Ret (-1, p, um)).
  { unfold big_block_read. rewrite (wb_felsize _ _ _ _ HW). pose proof (wb_wpos _ _ _ _ HW).
    replace (2 ^ 31 <=? Z.abs w) with false by lia. replace (w =? 0) with false by lia. cbv zeta.
    rewrite (chunk_array_init (e_me e) b) by apply HW. cbn [bind].
    assert (Hr : row_nmemb b = b_nmemb b) by (unfold row_nmemb; replace (b_nmemb b =? 0) with false by lia; reflexivity).
    rewrite Hr. unfold a. cbn [a_size]. rewrite Z.div_mul by lia.
    rewrite (ptr_offset _ _ _ _ HL Pp). cbn [or_ub bind].
    pose proof (pa_abs _ _ _ Pp) as Hpa. rewrite Hpa.
    assert (Hbig : b_size b <? u64 (s64 (zsum sizes + start + m)) = true); [|rewrite Hbig; reflexivity].
    destruct (Z_lt_dec (zsum sizes + start + m) (2 ^ 63)) as [Hlt|Hge].
    - replace (s64 (zsum sizes + start + m)) with (zsum sizes + start + m) by (symmetry; apply s64_id; lia).
      unfold u64. rewrite Z.mod_small by lia. lia.
    - exfalso. unfold m in *. destruct (b_size b <? u64 (start + n)); lia. }
  rewrite ER. cbn [bind]. replace (-1 =? 0) with false by reflexivity. reflexivity.
Qed.
