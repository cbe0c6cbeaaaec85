(* Proofs about layouts and seeking. *)
From Coq.Strings Require Import Byte String.
From Coq Require Import List ZArith Lia Bool ZifyBool.
From Verif Require Import Base BaseFacts Dtype Array FS Block Spec.
Import ListNotations.
Open Scope Z_scope.
Ltac Zify.zify_post_hook ::= Z.div_mod_to_equations.
Arguments first_row : simpl never.

Lemma first_row_S sizes i : (i < length sizes)%nat ->
  first_row sizes (S i) = first_row sizes i + nth i sizes 0.
Proof.
  unfold first_row. revert i. induction sizes as [|s r IH]; intros i H; simpl in H; [lia|].
  destruct i.
  - simpl. lia.
  - specialize (IH i ltac:(lia)). unfold zsum in *.
    change (firstn (S (S i)) (s :: r)) with (s :: firstn (S i) r).
    change (firstn (S i) (s :: r)) with (s :: firstn i r).
    cbn [fold_right nth]. lia.
Qed.
Lemma first_row_0 sizes : first_row sizes 0 = 0.
Proof. reflexivity. Qed.
Lemma first_row_all sizes : first_row sizes (length sizes) = zsum sizes.
Proof. unfold first_row. rewrite firstn_all. reflexivity. Qed.
Lemma first_row_cons s r i : first_row (s :: r) (S i) = s + first_row r i.
Proof. reflexivity. Qed.

Lemma nonneg_nth sizes i : Forall (fun s => 0 <= s) sizes -> 0 <= nth i sizes 0.
Proof.
  intros H. destruct (Nat.ltb_spec i (length sizes)).
  - rewrite Forall_forall in H. apply H. apply nth_In. assumption.
  - rewrite nth_overflow by lia. lia.
Qed.

Lemma first_row_mono sizes i j : Forall (fun s => 0 <= s) sizes ->
  (i <= j)%nat -> first_row sizes i <= first_row sizes j.
Proof.
  intros Hn Hij. induction Hij; [lia|].
  destruct (Nat.ltb_spec m (length sizes)).
  - rewrite first_row_S by lia. pose proof (nonneg_nth sizes m Hn). lia.
  - unfold first_row in *. rewrite (firstn_all2 sizes (n := S m)) by lia.
    rewrite (firstn_all2 sizes (n := m)) in IHHij by lia. exact IHHij.
Qed.

Lemma first_row_nonneg sizes i : Forall (fun s => 0 <= s) sizes -> 0 <= first_row sizes i.
Proof. intros. change 0 with (first_row sizes 0). apply first_row_mono; auto. lia. Qed.
Lemma first_row_le sizes i : Forall (fun s => 0 <= s) sizes -> first_row sizes i <= zsum sizes.
Proof.
  intros. destruct (Nat.leb_spec i (length sizes)).
  - rewrite <- first_row_all. apply first_row_mono; auto.
  - unfold first_row. rewrite firstn_all2 by lia. lia.
Qed.

(* home is characterised by the file boundaries *)
Lemma home_spec sizes : forall r i q, Forall (fun s => 0 <= s) sizes ->
  (home sizes r = Some (i, q) <->
   (i < length sizes)%nat /\ 0 <= q < nth i sizes 0 /\ first_row sizes i + q = r).
Proof.
  induction sizes as [|s rest IH]; intros r i q Hn; simpl home.
  - split; [discriminate|]. simpl. lia.
  - inversion Hn as [|? ? Hs Hr]; subst.
    destruct (r <? 0) eqn:E0.
    + split; [discriminate|]. intros (Hi & Hq & He).
      pose proof (first_row_nonneg (s :: rest) i Hn). lia.
    + destruct (r <? s) eqn:E.
      * split.
        { intros H; inversion H; subst. simpl. split; [lia|]. split; [lia|].
          try rewrite first_row_0; lia. }
        { intros (Hi & Hq & He). destruct i.
          - rewrite first_row_0 in He. simpl in He. subst. reflexivity.
          - exfalso. rewrite first_row_cons in He. pose proof (first_row_nonneg rest i Hr). lia. }
      * destruct (home rest (r - s)) as [[i' q']|] eqn:Eh.
        { split.
          - intros H; inversion H; subst. apply IH in Eh; auto. destruct Eh as (H1 & H2 & H3).
            rewrite first_row_cons. simpl. split; [lia|]. split; auto. lia.
          - intros (Hi & Hq & He). destruct i.
            + rewrite first_row_0 in He. simpl in Hq. lia.
            + rewrite first_row_cons in He. simpl in Hi, Hq.
              assert (home rest (r - s) = Some (i, q)) by (apply IH; auto; repeat split; lia).
              congruence. }
        { split; [discriminate|]. intros (Hi & Hq & He). destruct i.
          - rewrite first_row_0 in He. simpl in Hq. lia.
          - rewrite first_row_cons in He. simpl in Hi, Hq.
            assert (home rest (r - s) = Some (i, q)) by (apply IH; auto; repeat split; lia).
            congruence. }
Qed.

Lemma home_some sizes : forall r, Forall (fun s => 0 <= s) sizes ->
  0 <= r < zsum sizes -> exists i q, home sizes r = Some (i, q).
Proof.
  induction sizes as [|s rest IH]; intros r Hn Hr; simpl in *.
  - unfold zsum in Hr. simpl in Hr. lia.
  - inversion Hn; subst. destruct (r <? 0) eqn:E0; [lia|].
    destruct (r <? s) eqn:E; [eauto|].
    destruct (IH (r - s)) as (i & q & E2); auto.
    { unfold zsum in *. simpl in Hr. lia. }
    rewrite E2. eauto.
Qed.

Lemma home_none sizes r : Forall (fun s => 0 <= s) sizes ->
  (r < 0 \/ zsum sizes <= r) -> home sizes r = None.
Proof.
  intros Hn Hr. destruct (home sizes r) as [[i q]|] eqn:E; auto.
  apply home_spec in E; auto. destruct E as (H1 & H2 & H3).
  pose proof (first_row_nonneg sizes i Hn).
  pose proof (first_row_le sizes (S i) Hn). rewrite first_row_S in H0 by lia. lia.
Qed.

(* ------------------------------------------------------- model offsets *)
Lemma offsets_spec sizes : forall acc, Forall (fun s => 0 <= s) sizes ->
  0 <= acc -> acc + zsum sizes < 2 ^ 64 ->
  offsets acc sizes = map (fun i => acc + first_row sizes i) (seq 0 (S (length sizes))).
Proof.
  induction sizes as [|s rest IH]; intros acc Hn Ha Hs.
  - simpl. rewrite first_row_0. f_equal. lia.
  - inversion Hn; subst. cbn [offsets length seq map]. rewrite first_row_0. f_equal; [lia|].
    unfold zsum in Hs. simpl in Hs. fold (zsum rest) in Hs.
    pose proof (zsum_nonneg rest H2).
    rewrite u64_id by lia. rewrite IH by (auto; lia).
    cbn [length seq map]. rewrite !first_row_0, first_row_cons, first_row_0. f_equal; [lia|].
    rewrite <- !seq_shift, !map_map. apply map_ext. intros i.
    rewrite !first_row_cons. lia.
Qed.

Lemma offsets0 sizes : Forall (fun s => 0 <= s) sizes -> zsum sizes < 2 ^ 64 ->
  offsets 0 sizes = map (first_row sizes) (seq 0 (S (length sizes))).
Proof. intros. rewrite offsets_spec by (auto; lia). apply map_ext. intros. lia. Qed.

Lemma offsets_last sizes : Forall (fun s => 0 <= s) sizes -> zsum sizes < 2 ^ 64 ->
  last (offsets 0 sizes) 0 = zsum sizes.
Proof.
  intros. rewrite offsets0 by auto. rewrite seq_S, map_app. simpl. rewrite last_last.
  apply first_row_all.
Qed.

Lemma foffset_nth b sizes i : has_layout b sizes -> 0 <= i <= zlen sizes ->
  znth (b_foffset b) i = Some (first_row sizes (Z.to_nat i)).
Proof.
  intros H Hi. rewrite (hl_foffset _ _ H). rewrite znth_map.
  unfold zlen in Hi. rewrite znth_to_nat by lia.
  rewrite nth_error_nth' with (d := 0%nat) by (rewrite seq_length; lia).
  rewrite seq_nth by lia. reflexivity.
Qed.

Lemma fsize_nth b sizes i : has_layout b sizes -> 0 <= i < zlen sizes ->
  znth (b_fsize b) i = Some (nth (Z.to_nat i) sizes 0).
Proof.
  intros H Hi. rewrite (hl_fsize _ _ H). rewrite znth_app1 by lia. apply znth_nth. lia.
Qed.

(* ------------------------------------------------------------ the search *)
Lemma seek_search_spec b sizes off : has_layout b sizes -> 0 <= off < 2 ^ 63 ->
  forall fuel left right,
  0 <= left < right -> right <= zlen sizes -> right - left <= Z.of_nat fuel ->
  first_row sizes (Z.to_nat left) <= off ->
  (right = zlen sizes \/ off < first_row sizes (Z.to_nat right)) ->
  exists l, seek_search (b_foffset b) off left right fuel = Ret l /\
    0 <= l < zlen sizes /\ first_row sizes (Z.to_nat l) <= off /\
    (l + 1 = zlen sizes \/ off < first_row sizes (Z.to_nat (l + 1))).
Proof.
  intros HL Ho. induction fuel as [|k IH]; intros left right Hlr Hr Hf Hl Hright; [lia|].
  simpl. destruct (left + 1 <? right) eqn:E.
  - set (mid := (right - left) / 2 + left).
    assert (Hm : left < mid < right) by (unfold mid; lia).
    rewrite (foffset_nth b sizes mid) by (auto; lia). simpl.
    rewrite u64_id by lia.
    destruct (first_row sizes (Z.to_nat mid) <=? off) eqn:E2.
    + apply IH; lia.
    + apply IH; try lia.
  - exists left. assert (right = left + 1) by lia. subst right.
    split; auto. split; [lia|]. split; auto.
Qed.

Lemma zsum_range b sizes : has_layout b sizes -> 0 <= zsum sizes < 2 ^ 63.
Proof. intros H. split; [apply zsum_nonneg; apply H | apply H]. Qed.

(* seeking to a non-negative row inside the block *)
Lemma seek_nonneg b sizes p o : has_layout b sizes -> 0 <= o <= zsum sizes ->
  exists p', big_block_seek b p o = Ret (0, p') /\ ptr_at sizes p' o /\
    p_fileid p' < Z.max 1 (zlen sizes).
Proof.
  intros HL Ho. pose proof (zsum_range _ _ HL) as Hz. pose proof (hl_size _ _ HL) as Hsz.
  pose proof (hl_nonneg _ _ HL) as Hn.
  unfold big_block_seek.
  destruct ((b_size b =? 0) && (o =? 0)) eqn:E.
  - exists (mkPtr 0 0 0). split; auto. split; [|simpl; lia].
    constructor; simpl; try lia. all: pose proof (zlen_nonneg sizes); try rewrite first_row_0; lia.
  - destruct (o <? 0) eqn:E1; [lia|]. cbn [bind].
    rewrite Hsz, u64_id by lia. destruct (zsum sizes <? o) eqn:E2; [lia|].
    assert (Hpos : 0 < zlen sizes).
    { destruct sizes; [unfold zsum in *; simpl in *; lia|]. unfold zlen. simpl. lia. }
    rewrite (hl_Nfile _ _ HL).
    destruct (seek_search_spec b sizes o HL ltac:(lia) (S (Z.to_nat (zlen sizes))) 0 (zlen sizes))
      as (l & El & Hlr & Hl1 & Hl2); try lia.
    { rewrite first_row_0; lia. }
    rewrite El. cbn [bind or_ub]. rewrite (foffset_nth b sizes l) by (auto; lia). simpl.
    pose proof (first_row_nonneg sizes (Z.to_nat l) Hn).
    rewrite s64_id by lia.
    eexists. split; [reflexivity|]. split; [|simpl; lia].
    constructor; simpl; try lia.
    intros Hlt. apply home_spec; auto. unfold zlen in Hlr.
    split; [lia|]. split; [|lia].
    assert (o < first_row sizes (Z.to_nat (l + 1))).
    { destruct Hl2 as [Hl2|]; auto. rewrite Hl2. unfold zlen. rewrite Nat2Z.id, first_row_all. exact Hlt. }
    replace (Z.to_nat (l + 1)) with (S (Z.to_nat l)) in H0 by lia.
    rewrite first_row_S in H0 by lia. lia.
Qed.

Lemma seek_spec b sizes p o : has_layout b sizes -> - 2 ^ 63 <= o < 2 ^ 63 ->
  (0 <= o <= zsum sizes ->
     exists p', big_block_seek b p o = Ret (0, p') /\ ptr_at sizes p' o) /\
  (- zsum sizes <= o < 0 ->
     exists p', big_block_seek b p o = Ret (0, p') /\ ptr_at sizes p' (zsum sizes + o)) /\
  (o < - zsum sizes \/ zsum sizes < o -> big_block_seek b p o = Ret (-1, p)).
Proof.
  intros HL Ho. pose proof (zsum_range _ _ HL) as Hz. pose proof (hl_size _ _ HL) as Hsz.
  assert (Hend : znth (b_foffset b) (b_Nfile b) = Some (zsum sizes)).
  { rewrite (hl_Nfile _ _ HL). rewrite (foffset_nth b sizes) by (auto; pose proof (zlen_nonneg sizes); lia).
    unfold zlen. rewrite Nat2Z.id, first_row_all. reflexivity. }
  split; [|split].
  - intros H. destruct (seek_nonneg b sizes p o HL H) as (p' & H1 & H2 & _). eauto.
  - intros H.
    destruct (seek_nonneg b sizes p (zsum sizes + o) HL ltac:(lia)) as (p' & H1 & H2 & _).
    exists p'. split; auto. rewrite <- H1. unfold big_block_seek.
    destruct ((b_size b =? 0) && (o =? 0)) eqn:E; [lia|].
    destruct ((b_size b =? 0) && (zsum sizes + o =? 0)) eqn:E1; [lia|].
    destruct (o <? 0) eqn:E2; [|lia]. destruct (zsum sizes + o <? 0) eqn:E3; [lia|].
    rewrite Hend. simpl. rewrite s64_id by lia. rewrite (Z.add_comm o). reflexivity.
  - intros H. unfold big_block_seek.
    destruct ((b_size b =? 0) && (o =? 0)) eqn:E; [lia|].
    destruct (o <? 0) eqn:E2.
    + rewrite Hend. simpl. rewrite s64_id by lia.
      rewrite u64_neg by lia. rewrite Hsz.
      destruct (zsum sizes <? o + zsum sizes + 2 ^ 64) eqn:E3; [reflexivity|lia].
    + simpl. rewrite u64_id by lia. rewrite Hsz. destruct (zsum sizes <? o) eqn:E3; [reflexivity|lia].
Qed.

(* the current row of a pointer *)
Lemma ptr_offset b sizes p o : has_layout b sizes -> ptr_at sizes p o ->
  znth (b_foffset b) (p_fileid p) = Some (first_row sizes (Z.to_nat (p_fileid p))).
Proof. intros HL Hp. apply foffset_nth; auto. apply Hp. Qed.

Lemma seek_rel_spec b sizes p a d : has_layout b sizes -> ptr_at sizes p a ->
  - 2 ^ 63 <= d < 2 ^ 63 -> - 2 ^ 63 <= a + d < 2 ^ 63 ->
  big_block_seek_rel b p d = big_block_seek b p (a + d).
Proof.
  intros HL Hp Hd Had. unfold big_block_seek_rel.
  rewrite (ptr_offset b sizes p a HL Hp). simpl.
  rewrite (pa_abs _ _ _ Hp). rewrite s64_id by lia. reflexivity.
Qed.

Lemma eof_spec b sizes p a : has_layout b sizes -> ptr_at sizes p a ->
  big_block_eof b p = Ret (a =? zsum sizes).
Proof.
  intros HL Hp. unfold big_block_eof. rewrite (ptr_offset b sizes p a HL Hp). simpl.
  pose proof (zsum_range _ _ HL). pose proof (pa_range _ _ _ Hp).
  rewrite (pa_abs _ _ _ Hp), s64_id, u64_id, (hl_size _ _ HL) by lia. f_equal. lia.
Qed.

(* relative seek forward inside the block *)
Lemma seek_rel_fwd b sizes p a d : has_layout b sizes -> ptr_at sizes p a ->
  0 <= a + d <= zsum sizes ->
  exists p', big_block_seek_rel b p d = Ret (0, p') /\ ptr_at sizes p' (a + d).
Proof.
  intros HL Hp Hd. pose proof (zsum_range _ _ HL). pose proof (pa_range _ _ _ Hp).
  rewrite (seek_rel_spec b sizes p a d) by (auto; lia).
  destruct (seek_nonneg b sizes p (a + d) HL Hd) as (p' & H1 & H2 & _). eauto.
Qed.

(* inside the block the pointer's file exists and the row is in it *)
Lemma ptr_in b sizes p o : has_layout b sizes -> ptr_at sizes p o -> o < zsum sizes ->
  0 <= p_fileid p < zlen sizes /\
  0 <= p_roffset p < nth (Z.to_nat (p_fileid p)) sizes 0 /\
  home sizes o = Some (Z.to_nat (p_fileid p), p_roffset p).
Proof.
  intros HL Hp Ho. pose proof (pa_in _ _ _ Hp Ho) as Hh.
  pose proof Hh as Hh2. apply home_spec in Hh2; [|apply HL]. destruct Hh2 as (H1 & H2 & H3).
  pose proof (pa_file _ _ _ Hp). unfold zlen in *. repeat split; auto; lia.
Qed.

Lemma seek_rel_moves b sizes p a d : has_layout b sizes -> ptr_at sizes p a ->
  - 2 ^ 63 <= d < 2 ^ 63 -> - 2 ^ 63 <= a + d < 2 ^ 63 ->
  (0 <= a + d <= zsum sizes ->
     exists p', big_block_seek_rel b p d = Ret (0, p') /\ ptr_at sizes p' (a + d)) /\
  (zsum sizes < a + d -> big_block_seek_rel b p d = Ret (-1, p)).
Proof.
  intros HL Hp Hd Had. rewrite (seek_rel_spec b sizes p a d) by auto.
  destruct (seek_spec b sizes p (a + d) HL Had) as (A & _ & B). split; auto.
Qed.
