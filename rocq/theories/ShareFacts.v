(* Proofs about programs that share rows among processes. *)
From Coq.Strings Require Import Byte String.
From Coq Require Import List ZArith Lia Bool ZifyBool ZifyNat Permutation.
From Verif Require Import Base BaseFacts Dtype Cast Array FS Fmt Attr Block File Split Spec AttrSpec OpenSpec SessSpec HistSpec FileSpec Py PySpec Util UtilSpec MpiSpec
  FSFacts DtypeFacts ArrayFacts SeekFacts ConvFacts WriteFacts ReadFacts IOFacts AttrFacts AttrFileFacts TextFacts HeaderFacts TableFacts OpenFacts ReopenFacts SessFacts HistFacts AggFacts MpiFacts StepFacts MiscFacts
  FileFacts FrameFacts RecNewFacts PyFacts PyNewFacts UtilFacts SegFacts CHistFacts CopyFacts CopyMpi CopyMpiFacts PropsCopyMpi Share ShareSpec.
Import ListNotations.
Open Scope Z_scope.
Local Open Scope out_scope.
Ltac Zify.zify_post_hook ::= Z.div_mod_to_equations.

(* ------------------------------------------------------------------ lists *)
Lemma interleave_perm {A} : forall (l : list (nat * A)) logs, interleaves l logs -> Permutation (map snd l) (concat logs).
Proof.
  induction l as [|[k x] l IH]; intros logs H.
  - cbn [map]. assert (E : concat logs = []); [|rewrite E; constructor].
    assert (F : Forall (fun y => y = []) logs). { apply Forall_forall. intros y Hy. apply In_nth with (d := []) in Hy. destruct Hy as (i & _ & <-). symmetry. apply (H i). }
    clear -F. induction F as [|y ys Hy _ IH]; [reflexivity|]. cbn [concat]. rewrite Hy, IH. reflexivity.
  - pose proof (H k) as Hk. cbn [filter fst map] in Hk. rewrite Nat.eqb_refl in Hk. cbn [map snd] in Hk.
    assert (Hlt : (k < length logs)%nat). { destruct (Nat.lt_ge_cases k (length logs)) as [|X]; [assumption|]. rewrite (nth_overflow _ _ X) in Hk. discriminate Hk. }
    destruct (nth_split logs [] Hlt) as (l1 & l2 & El & Ek). rewrite <- Hk in El. set (t := map snd (filter (fun y => (fst y =? k)%nat) l)) in *.
    specialize (IH (l1 ++ t :: l2)). cbn [map snd]. rewrite El.
    assert (Hin : interleaves l (l1 ++ t :: l2)).
    { intros i. destruct (Nat.eq_dec i k) as [->|Hne].
      - rewrite app_nth2 by lia. rewrite Ek, Nat.sub_diag. reflexivity.
      - pose proof (H i) as Hi. cbn [filter fst] in Hi. replace (k =? i)%nat with false in Hi by (symmetry; apply Nat.eqb_neq; lia). rewrite Hi, El.
        destruct (Nat.lt_ge_cases i k); [rewrite !app_nth1 by lia; reflexivity|]. rewrite !app_nth2 by lia. destruct (i - length l1)%nat eqn:Ei; [lia|reflexivity]. }
    rewrite concat_app in *. cbn [concat app] in *. apply Permutation_cons_app. rewrite <- concat_cons, <- concat_app. cbn [concat] in IH |- *. apply IH in Hin. rewrite concat_app in *. exact Hin.
Qed.
Lemma interleave_who {A} (l : list (nat * A)) logs : interleaves l logs -> Forall (fun x => (fst x < length logs)%nat) l.
Proof.
  intros H. apply Forall_forall. intros [k x] Hx. destruct (Nat.lt_ge_cases k (length logs)) as [|X]; [assumption|]. exfalso.
  pose proof (H k) as Hk. rewrite (nth_overflow _ _ X) in Hk. assert (Hi : In x (map snd (filter (fun y => (fst y =? k)%nat) l))).
  { change x with (snd (k, x)). apply in_map. apply filter_In. split; [exact Hx|]. apply Nat.eqb_refl. }
  rewrite Hk in Hi. destruct Hi.
Qed.
(* how often row r is among these pieces (offset, length) *)
Definition hits (r : Z) (l : list (Z * Z)) : nat := length (filter (fun x => (fst x <=? r) && (r <? fst x + snd x)) l).
Lemma hits_cons r x l : hits r (x :: l) = ((if (fst x <=? r)%Z && (r <? fst x + snd x)%Z then 1 else 0) + hits r l)%nat.
Proof. unfold hits. cbn [filter]. destruct (_ && _); reflexivity. Qed.
Lemma hits_perm r l l' : Permutation l l' -> hits r l = hits r l'.
Proof. intros H. induction H; rewrite ?hits_cons in *; lia. Qed.
Lemma hits_times r l : hits r (map fst l) = times r l.
Proof. unfold times. induction l as [|x l IH]; [reflexivity|]. cbn [map]. rewrite hits_cons, IH. cbn [filter]. destruct (_ && _); reflexivity. Qed.

Lemma merged_ext N b b' : (0 < N)%nat -> (forall i, (i < N)%nat -> b i = b' i) -> merged N b = merged N b'.
Proof.
  intros HN H. unfold merged. rewrite (H 0%nat HN). f_equal.
  - f_equal. assert (X : forall l, (forall i, In i l -> (i < N)%nat) -> existsb (fun i => b_dirty (b i)) l = existsb (fun i => b_dirty (b' i)) l).
    { induction l as [|i l IH]; intros Hl; [reflexivity|]. cbn [existsb]. rewrite (H i) by (apply Hl; left; reflexivity). f_equal. apply IH. intros j Hj. apply Hl. right. exact Hj. }
    apply X. intros i Hi. apply in_seq in Hi. lia.
  - f_equal. apply map_ext. intros j. unfold recorded. do 2 f_equal. apply map_ext_in. intros i Hi. apply in_seq in Hi. rewrite (H i) by lia. reflexivity.
Qed.
Lemma set_checksums_same b : set_checksums b (b_fchecksum b) = b.
Proof. destruct b; reflexivity. Qed.

(* ------------------------------------------------------------------ the handles of the ranks *)
Section Phase.
Variables (e : env) (base dt : bytes) (nmemb : Z) (n : nat) (s : attrset).
Let isz := itemsize (e_me e) dt.
Let w := isz * nmemb.
Hypothesis Hbn : block_name base.
Hypothesis Hty : header_type dt.
Hypothesis Hnm31 : 0 < nmemb < 2 ^ 31.
Hypothesis Hwc : w <= e_chunk e.
Hypothesis Hw31 : w < 2 ^ 31.
Hypothesis Hdt : dt_ok (e_me e) dt.
Notation inv := (hinv e base dt nmemb w).
Let N := S n.

Lemma write_put t f b p0 o rows m : inv t f b -> rows <> [] -> Forall (fun v => length v = Z.to_nat w) rows -> 0 <= o -> o + zlen rows <= t_size t -> t_size t * nmemb < 2 ^ 63 ->
  load m 0 (length (concat rows)) = Some (concat rows) ->
  let b' := set_checksums (set_bdirty b true) (add_sums (b_fchecksum b) (t_sizes t) o rows) in
  exists p f' p' m', big_block_seek b p0 o = Ret (0, p) /\ big_block_write e f b p (chunk_array (e_me e) b (zlen rows)) m = Ret (0, f', b', p', m') /\
    inv (with_rows t o rows) f' b' /\ fs_eq f' (put_rows f base (t_sizes t) w o rows).
Proof.
  intros I Hne HF Ho Hs H4 Hm b'. destruct (hinv_size _ _ _ _ _ _ _ _ I) as (_ & Edt & Enm & HL).
  destruct (write_chunk e base dt nmemb Hbn Hty Hnm31 Hwc Hw31 Hdt t f b p0 o rows m I Hne HF Ho Hs H4 Hm) as (p & f' & b2 & p' & m' & Es & Ew & I' & _).
  destruct (chunk_source e dt nmemb Hnm31 Hwc Hw31 Hdt b rows m Edt Enm Hne HF Hm) as [(L & Hh & Hc) Hrows]. fold isz in L, Hh, Hc, Hrows. set (vs := group _ _ _) in *.
  assert (Hn : 0 < zlen rows) by (destruct rows; [congruence|rewrite zlen_cons; pose proof (zlen_nonneg rows); lia]).
  set (a := chunk_array (e_me e) b (zlen rows)) in *. pose proof (hv_wb _ _ _ _ _ _ _ _ I) as HW. pose proof (hv_base _ _ _ _ _ _ _ _ I) as Eb.
  assert (Hnr : zlen rows = a_size a / b_nmemb b) by (unfold a; cbn [chunk_array a_size]; rewrite Z.div_mul; lia).
  destruct (seek_nonneg b (t_sizes t) p0 o HL ltac:(unfold t_size in *; lia)) as (q & Eq & Hq & _). rewrite Es in Eq. injection Eq as <-.
  assert (Lv : zlen vs = zlen rows * b_nmemb b). { unfold nrows in L. rewrite <- Enm, <- Hnr in L. exact L. }
  destruct (write_spec e (t_sizes t) w a f b p m o vs vs (zlen rows)) as (f2 & p2 & m2 & E2 & Ef & _); auto.
  - apply chunk_array_ok; rewrite ?Enm; lia.
  - unfold a. cbn [chunk_array a_dtype]. rewrite Edt. exact Hdt.
  - left. reflexivity.
  - intros _. rewrite Lv. unfold a. cbn [chunk_array a_dtype]. apply chunk_disjoint; rewrite ?Enm, ?Edt; try lia. apply Hdt.
  - rewrite Edt. exact Hc.
  - rewrite Eb. apply I.
  - rewrite Enm, Hrows, Eb in *. rewrite Ew in E2. injection E2 as X1 X2 X3 X4. subst f2 b2 p2 m2. exists p, f', p', m'. auto.
Qed.

Record pinv (t : table) (f : fs) (c : nat -> block) : Prop := {
  pi_h : forall i, (i < N)%nat -> exists ts, inv (resum t ts) f (c i);
  pi_sum : sums_ok f base (t_sizes t) (b_fchecksum (merged N c));
  pi_zero : forall i j, (i < N)%nat -> b_dirty (c i) = false -> (j < length (t_sizes t))%nat -> nth j (b_fchecksum (c i)) 0 = 0
}.
Lemma pinv_wb t f c i : pinv t f c -> (i < N)%nat -> wblock e (c i) (t_sizes t) w.
Proof. intros P Hi. destruct (pi_h _ _ _ P i Hi) as (ts & I). apply I. Qed.

Lemma zsum_point (g : nat -> Z) k : forall (l : list nat), NoDup l -> zsum (map (fun i => if (i =? k)%nat then g k else 0) l) = if in_dec Nat.eq_dec k l then g k else 0.
Proof.
  induction l as [|i l IH]; intros Hd; [reflexivity|]. inversion Hd as [|? ? Hn Hd']; subst. cbn [map]. rewrite zsum_cons, (IH Hd').
  destruct (Nat.eq_dec i k) as [->|Hik].
  - rewrite Nat.eqb_refl. destruct (in_dec Nat.eq_dec k l); [contradiction|]. destruct (in_dec Nat.eq_dec k (k :: l)) as [_|X]; [lia|]. exfalso. apply X. left. reflexivity.
  - replace (i =? k)%nat with false by (symmetry; apply Nat.eqb_neq; exact Hik). destruct (in_dec Nat.eq_dec k l) as [H|H]; destruct (in_dec Nat.eq_dec k (i :: l)) as [H'|H']; try reflexivity.
    + exfalso. apply H'. right. exact H.
    + destruct H' as [H'|H']; [congruence|contradiction].
Qed.
Lemma recorded_upd c k b j : (k < N)%nat -> recorded N (upd_rank c k b) j = recorded N c j + (nth j (b_fchecksum b) 0 - nth j (b_fchecksum (c k)) 0).
Proof.
  intros Hk. unfold recorded. set (d := nth j (b_fchecksum b) 0 - nth j (b_fchecksum (c k)) 0).
  assert (G : forall l, zsum (map (fun i => nth j (b_fchecksum (upd_rank c k b i)) 0) l) = zsum (map (fun i => nth j (b_fchecksum (c i)) 0) l) + zsum (map (fun i => if (i =? k)%nat then d else 0) l)).
  { induction l as [|i l IH]; [reflexivity|]. cbn [map]. rewrite !zsum_cons, IH. unfold upd_rank at 1. destruct (i =? k)%nat eqn:E; [apply Nat.eqb_eq in E; subst i; unfold d; lia|lia]. }
  rewrite G. f_equal. rewrite (zsum_point (fun _ => d) k _ (seq_NoDup _ _)). destruct (in_dec _ _ _) as [_|X]; [reflexivity|]. exfalso. apply X. apply in_seq. lia.
Qed.

(* one rank writes rows that nobody has written *)
Lemma put_step t f c k o rows m : pinv t f c -> (k < N)%nat -> Forall (fun v => length v = Z.to_nat w) rows -> 0 <= o -> o + zlen rows <= t_size t -> t_size t * nmemb < 2 ^ 63 ->
  load m 0 (length (concat rows)) = Some (concat rows) -> (forall r, o <= r < o + zlen rows -> t_row t r = None) ->
  exists t' f' b', put_item e f (set_attrs (c k) s) o (chunk_array (e_me e) (c k) (zlen rows)) m = Ret (0, f', set_attrs b' s) /\
    pinv t' f' (upd_rank c k b') /\ dframe base f f' /\ t_sizes t' = t_sizes t /\
    forall r, t_row t' r = if (o <=? r) && (r <? o + zlen rows) then nth_error rows (Z.to_nat (r - o)) else t_row t r.
Proof.
  intros P Hk HF Ho Hs H4 Hm Hnone. destruct (pi_h _ _ _ P k Hk) as (ts & I). destruct (hinv_size _ _ _ _ _ _ _ _ I) as (_ & Edt & Enm & HL). cbn [resum t_sizes] in HL.
  unfold put_item. change (big_block_seek (set_attrs (c k) s)) with (big_block_seek (c k)).
  destruct rows as [|row rows0].
  { change (zlen []) with 0 in *. destruct (seek_nonneg (c k) (t_sizes t) (mkPtr 0 0 0) o HL ltac:(unfold t_size in *; lia)) as (q & -> & _). cbn [bind]. change (negb (0 =? 0)) with false. cbv iota.
    unfold big_block_write, big_block_write_fuel. change (a_size (chunk_array (e_me e) (c k) 0) =? 0) with true. cbv iota. cbn [bind]. change (0 =? 0) with true. cbv iota.
    exists t, f, (c k). split; [reflexivity|]. split; [|split; [apply dframe_refl|split; [reflexivity|intros r; replace ((o <=? r) && (r <? o + 0)) with false by lia; reflexivity]]].
    assert (X : forall i, upd_rank c k (c k) i = c i) by (intros i; unfold upd_rank; destruct (i =? k)%nat eqn:E; [apply Nat.eqb_eq in E; subst; reflexivity|reflexivity]).
    constructor.
    - intros i Hi. rewrite X. apply P. exact Hi.
    - rewrite (merged_ext N _ c); [apply P|unfold N; lia|auto].
    - intros i j Hi. rewrite X. apply P. exact Hi. }
  set (rows := row :: rows0) in *. assert (Hne : rows <> []) by discriminate.
  destruct (write_put (resum t ts) f (c k) (mkPtr 0 0 0) o rows m I Hne HF Ho Hs H4 Hm) as (p & f' & p' & m' & Es & Ew & I' & Ef). cbn [resum t_sizes] in Ew, I', Ef.
  rewrite Es. cbn [bind]. change (negb (0 =? 0)) with false. cbv iota. rewrite write_attrs, Ew. cbn [bind dressed]. change (0 =? 0) with true. cbv iota.
  set (b' := set_checksums (set_bdirty (c k) true) (add_sums (b_fchecksum (c k)) (t_sizes t) o rows)) in *.
  pose proof (write_dframe _ _ _ _ _ _ _ _ _ _ _ Ew) as Df. rewrite (hv_base _ _ _ _ _ _ _ _ I) in Df.
  exists (with_rows t o rows), f', b'. split; [reflexivity|]. split; [|split; [exact Df|split; [reflexivity|reflexivity]]].
  assert (H1 : forall i, (i < N)%nat -> exists ts', inv (resum (with_rows t o rows) ts') f' (upd_rank c k b' i)).
  { intros i Hi. unfold upd_rank. destruct (i =? k)%nat.
    - eexists. exact I'.
    - destruct (pi_h _ _ _ P i Hi) as (ti & Ii). exists ti. exact (hinv_rows e base dt nmemb w (resum t ti) f f' (c i) o rows Ii Ho Hs HF Ef). }
  constructor.
  - exact H1.
  - cbn [with_rows t_sizes]. pose proof (pinv_wb _ _ _ 0%nat P ltac:(unfold N; lia)) as W0.
    assert (W0' : wblock e (upd_rank c k b' 0%nat) (t_sizes t) w). { destruct (H1 0%nat ltac:(unfold N; lia)) as (x & X). apply X. }
    pose proof (merged_wblock N (fun _ => e) c (t_sizes t) w ltac:(unfold N; lia) (fun i Hi => pinv_wb _ _ _ i P Hi)) as Wm.
    assert (Lm : length (b_fchecksum (merged N c)) = S (length (t_sizes t))) by apply (hl_cks _ _ (wb_layout _ _ _ _ Wm)).
    eapply sums_ok_ext; [intros q; symmetry; apply Ef|].
    eapply sums_by; [|apply (sums_put_rows base (t_sizes t) w rows f o (b_fchecksum (merged N c)))]; try apply HL; auto; try apply I.
    + intros j Hj. rewrite (merged_nth N _ (t_sizes t) e w j W0' Hj), recorded_upd by exact Hk. symmetry.
      rewrite (add_sums_nth (t_sizes t) rows j (b_fchecksum (merged N c)) o (recorded N c j)); [|rewrite Lm; lia|apply (merged_nth N c (t_sizes t) e w j W0 Hj)].
      unfold b'. cbn [set_checksums b_fchecksum].
      assert (Rk : nth j (b_fchecksum (c k)) 0 = nth j (b_fchecksum (c k)) 0 mod 2 ^ 32).
      { symmetry. apply Z.mod_small. pose proof (hl_cksr _ _ HL) as R. rewrite Forall_forall in R. apply R. apply nth_In. rewrite (hl_cks _ _ HL). lia. }
      rewrite (add_sums_nth (t_sizes t) rows j (b_fchecksum (c k)) o _ ltac:(rewrite (hl_cks _ _ HL); lia) Rk). generalize (nth j (b_fchecksum (c k)) 0) (recorded N c j) (bytes_into (t_sizes t) j o rows). intros x y z.
      rewrite Z.add_sub_assoc, <- Zminus_mod_idemp_l, Zplus_mod_idemp_r, Zminus_mod_idemp_l. f_equal. lia.
    + eapply wb_wpos; exact W0.
    + rewrite Lm. lia.
    + intros r Hr u Hu. destruct (hv_zero _ _ _ _ _ _ _ _ I _ _ Hu) as [X|(_ & -> & _)]; [|reflexivity]. cbn [resum t_row] in X. rewrite Hnone in X by exact Hr. discriminate X.
    + apply P.
  - cbn [with_rows t_sizes]. intros i j Hi. unfold upd_rank. destruct (i =? k)%nat; [discriminate|]. apply P. exact Hi.
Qed.

(* ------------------------------------------------------------------ all items *)
Variables (X : Type) (item : fs -> block -> X -> out (Z * fs * block)) (dest : X -> Z * Z) (good : X -> Prop) (others : fs -> Prop) (rows : list bytes).
Let part x := firstn (Z.to_nat (snd (dest x))) (skipn (Z.to_nat (fst (dest x))) rows).
Hypothesis Hoth : forall f f', others f -> dframe base f f' -> block_dir f base -> others f'.
Hypothesis Hrows : Forall (fun v => length v = Z.to_nat w) rows.
Hypothesis Hsm : zlen rows * nmemb < 2 ^ 63.
Hypothesis Hgood : forall x, good x -> 0 <= fst (dest x) /\ 0 <= snd (dest x) /\ fst (dest x) + snd (dest x) <= zlen rows.
Hypothesis Hitem : forall f b x t, good x -> others f -> inv t f b ->
  exists m, item f (set_attrs b s) x = put_item e f (set_attrs b s) (fst (dest x)) (chunk_array (e_me e) b (snd (dest x))) m /\
    load m 0 (length (concat (part x))) = Some (concat (part x)).

Definition filledby (P : Z -> bool) (t : table) : Prop := forall r, 0 <= r < zlen rows -> t_row t r = if P r then nth_error rows (Z.to_nat r) else None.

Lemma nth_slice {A} : forall o c (l : list A) j, (j < c)%nat -> nth_error (firstn c (skipn o l)) j = nth_error l (o + j).
Proof.
  induction o as [|o IH]; intros c l j Hj; cbn [skipn Nat.add].
  - revert c l Hj. induction j as [|j IHj]; intros [|c] [|y l] Hj; cbn; auto; try lia. apply IHj. lia.
  - destruct l as [|y l]; [destruct c, j; reflexivity|]. cbn [nth_error]. apply IH. exact Hj.
Qed.

Lemma items_run : forall l t f bs c P, (forall i, (i < N)%nat -> bs i = set_attrs (c i) s) -> pinv t f c -> others f -> t_size t = zlen rows -> filledby P t ->
  Forall (fun x => (fst x < n)%nat /\ good (snd x)) l ->
  (forall r, (if P r then 1 else 0) + hits r (map (fun x => dest (snd x)) l) <= 1)%nat ->
  exists t' f' bs' c', run_items item f bs l = Ret (repeat true (length l), f', bs') /\ (forall i, (i < N)%nat -> bs' i = set_attrs (c' i) s) /\
    pinv t' f' c' /\ others f' /\ t_sizes t' = t_sizes t /\ filledby (fun r => P r || (0 <? hits r (map (fun x => dest (snd x)) l))%nat) t' /\ dframe base f f'.
Proof.
  induction l as [|[k x] l IH]; intros t f bs c P Hbs HP HO Hz Hfi HF Hh.
  - exists t, f, bs, c. split; [reflexivity|]. split; [exact Hbs|]. split; [exact HP|]. split; [exact HO|]. split; [reflexivity|]. split; [|apply dframe_refl].
    intros r Hr. rewrite (Hfi r Hr). change (hits r (map _ [])) with 0%nat. cbn [Nat.ltb Nat.leb]. rewrite orb_false_r. reflexivity.
  - inversion HF as [|? ? [Hk Hg] HF']; subst. cbn [fst snd] in Hk, Hg. cbn [run_items].
    destruct (Hgood x Hg) as (G1 & G2 & G3). destruct (pi_h _ _ _ HP (S k) ltac:(unfold N; lia)) as (ts & Ik).
    rewrite (Hbs (S k)) by (unfold N; lia). destruct (Hitem f (c (S k)) x _ Hg HO Ik) as (m & Ei & Hm). rewrite Ei.
    assert (Lp : zlen (part x) = snd (dest x)) by (unfold part, zlen in *; rewrite firstn_length, skipn_length; lia).
    assert (Fp : Forall (fun v => length v = Z.to_nat w) (part x)).
    { unfold part. apply Forall_forall. intros v Hv. rewrite Forall_forall in Hrows. apply Hrows. rewrite <- (firstn_skipn (Z.to_nat (fst (dest x))) rows). apply in_or_app. right.
      rewrite <- (firstn_skipn (Z.to_nat (snd (dest x))) (skipn _ rows)). apply in_or_app. left. exact Hv. }
    rewrite <- Lp. destruct (put_step t f c (S k) (fst (dest x)) (part x) m HP ltac:(unfold N; lia) Fp G1 ltac:(lia) ltac:(lia) Hm) as (t1 & f1 & b1 & E1 & P1 & D1 & Z1 & R1).
    { intros r Hr. rewrite (Hfi r) by lia. specialize (Hh r). cbn [map snd] in Hh. rewrite hits_cons in Hh. replace ((fst (dest x) <=? r) && (r <? fst (dest x) + snd (dest x))) with true in Hh by lia.
      destruct (P r); [lia|reflexivity]. }
    rewrite E1. cbn [bind]. assert (HO1 : others f1) by (eapply Hoth; [exact HO|exact D1|apply (hv_dir _ _ _ _ _ _ _ _ Ik)]).
    destruct (IH t1 f1 (upd_rank bs (S k) (set_attrs b1 s)) (upd_rank c (S k) b1) (fun r => P r || ((fst (dest x) <=? r) && (r <? fst (dest x) + snd (dest x))))) as (t2 & f2 & bs2 & c2 & E2 & B2 & P2 & O2 & Z2 & F2 & D2); auto.
    + intros i Hi. unfold upd_rank. destruct (i =? S k)%nat; [reflexivity|]. apply Hbs. exact Hi.
    + unfold t_size in *. rewrite Z1. exact Hz.
    + intros r Hr. rewrite R1, Lp. destruct ((fst (dest x) <=? r) && (r <? fst (dest x) + snd (dest x))) eqn:Er.
      * rewrite orb_true_r. unfold part. rewrite nth_slice by lia. f_equal. lia.
      * rewrite orb_false_r. apply Hfi. exact Hr.
    + intros r. specialize (Hh r). cbn [map snd] in Hh. rewrite hits_cons in Hh. destruct (P r), ((fst (dest x) <=? r) && (r <? fst (dest x) + snd (dest x))); cbn [orb]; lia.
    + rewrite E2. cbn [bind length repeat]. change (0 =? 0) with true. exists t2, f2, bs2, c2. split; [reflexivity|]. split; [exact B2|]. split; [exact P2|]. split; [exact O2|]. split; [congruence|].
      split; [|eapply dframe_trans; eauto]. intros r Hr. rewrite (F2 r Hr). cbn [map snd]. rewrite hits_cons.
      destruct (P r), ((fst (dest x) <=? r) && (r <? fst (dest x) + snd (dest x))); cbn [orb Nat.add]; try reflexivity.
Qed.
End Phase.

(* ------------------------------------------------------------------ before and after *)
Section Main.
Variables (e : env) (f : fs) (path newpath blk newblk dt : bytes) (nmemb Nfile : Z) (t : table) (d : list entry) (b0 : block) (M : amap).
Let base1 := path_join path blk.
Let base2 := path_join newpath newblk.
Let w := itemsize (e_me e) dt * nmemb.
Let N := pieces (zlen (t_sizes t)) Nfile.
Hypothesis Hg : g_clean e.
Hypothesis Hbn1 : block_name base1.
Hypothesis Hop1 : big_file_open f path = Some path.
Hypothesis Hfr : fresh e base1 dt nmemb (2 ^ 61) t d f b0.
Hypothesis HM : forall k, assoc k d = M k.
Hypothesis Hmk : makeable e f newpath newblk dt nmemb.
Hypothesis Hsep : ~ prefix_of (resolve base1) (resolve base2).
Hypothesis Hdn : dtype_normalize (e_me e) dt = dt.

Lemma share_begins cs : layout_ok cs -> zlen cs <= 2 ^ 24 ->
  exists f1 f3 b1 b2 s, big_file_open_block e f path blk = Ret (Some b1) /\ big_file_create f newpath = (f1, Some newpath) /\
    big_file_create_block e f1 newpath newblk (Some dt) nmemb (zlen cs) cs = Ret (f3, Some b2) /\
    copy_attrs e b2 (b_attrset b1) (as_list (b_attrset b1)) = Ret (set_attrs b2 s) /\
    fresh e base1 dt nmemb (2 ^ 61) t d f3 b1 /\ fresh e base2 dt nmemb 0 (new_table cs) [] f3 b2 /\
    as_ok (e_me e) s d /\ (as_dirty s = false -> d = []) /\ fs_get f3 (resolve newpath) = Some Dir /\ kept base2 f f3 /\ sums_ok f3 base2 cs (b_fchecksum b2).
Proof.
  intros Hlo H24. destruct (prepare _ _ _ _ _ _ Hmk) as (f1 & E1 & O1 & M1 & C1 & A1 & N1). fold base2 in C1, A1.
  pose proof Hmk as [[Hp1 Hp2] _ Mn _ _ Mi Mt Md Mc Mw]. fold base2 in Mn. rewrite Hdn in Mt, Md, Mc, Mw. fold w in Mc, Mw.
  assert (Hpre : prefix_of (resolve newpath) (resolve base2)) by (apply join_under; exact Hp1).
  assert (Hsep1 : ~ prefix_of (resolve base1) (resolve newpath)) by (intros X; apply Hsep; eapply prefix_trans; eauto).
  destruct (fresh_open e base1 dt nmemb Hbn1 Mt Mi (2 ^ 61) t d f b0 (fr_inv _ _ _ _ _ _ _ _ _ Hfr) (fr_clean _ _ _ _ _ _ _ _ _ Hfr) ltac:(lia) (fr_file _ _ _ _ _ _ _ _ _ Hfr)
    (fr_no1 _ _ _ _ _ _ _ _ _ Hfr) (ok_sorted _ _ _ (fr_ok _ _ _ _ _ _ _ _ _ Hfr)) (fr_sv _ _ _ _ _ _ _ _ _ Hfr) (fr_le _ _ _ _ _ _ _ _ _ Hfr) (fr_tot _ _ _ _ _ _ _ _ _ Hfr)) as (b1 & Eb1 & G0 & _).
  pose proof (fresh_same _ _ _ _ _ _ _ _ _ _ (dirs_same base1 f f1 _ N1 Hsep1) G0) as G1.
  destruct (block_place f1 newpath newblk Mn M1 C1 A1) as (f2 & E2 & D2 & A2 & N2). fold base2 in D2, A2, N2.
  pose proof (fresh_same _ _ _ _ _ _ _ _ _ _ (dirs_same base1 f1 f2 _ N2 Hsep) G1) as G2.
  destruct (fresh_create e f2 base2 dt nmemb cs Mn D2 Hlo H24 A2 ltac:(lia) ltac:(rewrite Hdn; exact Md)) as (f3 & b2 & E3 & G3 & S3). rewrite Hdn in G3.
  pose proof (create_frames _ _ _ _ _ _ _ _ _ (proj1 (proj2 Mn)) E3) as Fr3.
  assert (Hne : resolve base2 <> resolve base1) by (intros X; apply Hsep; rewrite X; apply prefix_refl).
  pose proof (fresh_same _ _ _ _ _ _ _ _ _ _ (frames_same base2 base1 f2 f3 Hne D2 (proj1 (hv_dir _ _ _ _ _ _ _ _ (fr_inv _ _ _ _ _ _ _ _ _ G2))) Fr3) G2) as G4.
  pose proof (fr_ok _ _ _ _ _ _ _ _ _ G1) as Ok1.
  assert (Hu0 : as_bufused (b_attrset b2) + total d <= 2 ^ 61) by (pose proof (fr_used _ _ _ _ _ _ _ _ _ G3); pose proof (fr_tot _ _ _ _ _ _ _ _ _ G1); lia).
  destruct (copy_attrs_spec e (b_attrset b1) ltac:(apply Ok1) (as_list (b_attrset b1)) d ltac:(apply Ok1) ltac:(apply esorted_nodup; apply Ok1) (fr_sv _ _ _ _ _ _ _ _ _ G1) b2 [] (fr_ok _ _ _ _ _ _ _ _ _ G3) Hu0)
    as (s & m1 & Ec & Os & Am & Ds & _).
  assert (Em : m1 = d). { apply esorted_ext; [apply Os|apply Ok1|]. intros k. rewrite Am. destruct (assoc k d); reflexivity. }
  subst m1. exists f1, f3, b1, b2, s. split; [exact Eb1|]. split; [exact E1|]. split; [unfold big_file_create_block; rewrite E2; change (0 =? 0) with true; cbv iota; exact E3|]. split; [exact Ec|].
  split; [exact G4|]. split; [exact G3|]. split; [exact Os|].
  split. { intros X. rewrite X in Ds. destruct (as_list (b_attrset b1)) as [|a l] eqn:El; [|discriminate Ds]. pose proof (ok_rep _ _ _ Ok1) as R. rewrite El in R. inversion R. reflexivity. }
  assert (Fr : kept base2 f f3).
  { eapply kept_trans; [eapply kept_dirs; [exact N1|exact Hpre]|]. eapply kept_trans; [eapply kept_dirs; [exact N2|apply prefix_refl]|]. apply kept_frames. exact Fr3. }
  split; [|split; [exact Fr|exact S3]]. rewrite Fr3; [apply N2, M1, prefix_refl|]. intros X. exact (own_shorter newpath newblk _ Hp1 X eq_refl).
Qed.

(* closing the handle of rank 0 with the checksums of all *)
Lemma share_closes cs n f3 f' b1 b2 s t' c : fresh e base1 dt nmemb (2 ^ 61) t d f3 b1 -> fresh e base2 dt nmemb 0 (new_table cs) [] f3 b2 -> as_ok (e_me e) s d -> (as_dirty s = false -> d = []) ->
  dframe base2 f3 f' -> pinv e base2 dt nmemb n t' f' c -> t_sizes t' = cs ->
  exists f4 b4, big_block_close e f' (set_attrs (merged (S n) c) s) = Ret (0, f4) /\ big_block_open e f4 base2 = Ret (Some b4) /\
    (exists ts, fresh e base2 dt nmemb (2 ^ 61) (resum t' ts) d f4 b4) /\ sums_ok f4 base2 cs (b_fchecksum b4) /\ mframe base2 f' f4.
Proof.
  intros G1 G2 Os Ds Df P Et. pose proof Hmk as [[Hp1 Hp2] _ Mn _ _ Mi Mt Md Mc Mw]. fold base2 in Mn. rewrite Hdn in Mt, Md, Mc, Mw. fold w in Mc, Mw.
  assert (HI : exists ts, hinv e base2 dt nmemb w (resum t' ts) f' (merged (S n) c)).
  { pose proof (merged_wblock (S n) (fun _ => e) c (t_sizes t') w ltac:(lia) (fun i Hi => pinv_wb e base2 dt nmemb n _ _ _ i P Hi)) as Wm.
    destruct (pi_h _ _ _ _ _ _ _ _ P 0%nat ltac:(lia)) as (t0 & I0). fold w in I0.
    destruct (b_dirty (merged (S n) c)) eqn:Dm.
    - destruct (hinv_other _ _ _ _ _ _ _ _ (merged (S n) c) I0) as (ts & It); auto; try (apply I0). exists ts. exact It.
    - exists t0. assert (E0 : merged (S n) c = c 0%nat); [|rewrite E0; exact I0].
      rewrite merged_dirty in Dm. assert (Hd : forall i, (i < S n)%nat -> b_dirty (c i) = false).
      { intros i Hi. destruct (b_dirty (c i)) eqn:X; [|reflexivity]. exfalso. assert (Y : existsb (fun i => b_dirty (c i)) (seq 0 (S n)) = true) by (apply existsb_exists; exists i; split; [apply in_seq; lia|exact X]). congruence. }
      pose proof (wb_layout _ _ _ _ (hv_wb _ _ _ _ _ _ _ _ I0)) as HL. cbn [resum t_sizes] in HL.
      unfold merged. rewrite Dm, set_bdirty_same by (apply Hd; lia). transitivity (set_checksums (c 0%nat) (b_fchecksum (c 0%nat))); [f_equal|apply set_checksums_same].
      rewrite (hl_Nfile _ _ HL). replace (Z.to_nat (zlen (t_sizes t'))) with (length (t_sizes t')) by (unfold zlen; lia).
      transitivity (firstn (length (t_sizes t')) (b_fchecksum (c 0%nat)) ++ skipn (length (t_sizes t')) (b_fchecksum (c 0%nat))); [f_equal|apply firstn_skipn]. pose proof (hl_cks _ _ HL) as Lc.
      apply (nth_ext _ _ 0 0); [rewrite map_length, seq_length, firstn_length; lia|]. intros j Hj. rewrite map_length, seq_length in Hj.
      rewrite nth_first by exact Hj. rewrite (pi_zero _ _ _ _ _ _ _ _ P 0%nat j ltac:(lia) (Hd 0%nat ltac:(lia)) Hj).
      rewrite (nth_indep _ 0 (recorded (S n) c 0%nat mod 2 ^ 32)) by (rewrite map_length, seq_length; exact Hj). rewrite (map_nth (fun j => recorded (S n) c j mod 2 ^ 32)), seq_nth by exact Hj. cbn [Nat.add].
      unfold recorded. replace (zsum _) with 0; [reflexivity|]. symmetry.
      assert (Z0 : forall l, (forall i, In i l -> (i < S n)%nat) -> zsum (map (fun i => nth j (b_fchecksum (c i)) 0) l) = 0).
      { induction l as [|i l IH]; intros Hl; [reflexivity|]. cbn [map]. rewrite zsum_cons, IH by (intros; apply Hl; right; assumption). pose proof (Hl i (or_introl eq_refl)) as Hi.
        rewrite (pi_zero _ _ _ _ _ _ _ _ P i j Hi (Hd i Hi) Hj). reflexivity. }
      apply Z0. intros i Hi. apply in_seq in Hi. lia. }
  destruct HI as (ts & I). destruct (dframe_attrs _ _ _ Df) as [Q1 Q2].
  assert (Qf : fs_get f3 (attr2_path base2) = Some (File [])). { destruct (fr_file _ _ _ _ _ _ _ _ _ G2) as (l & _ & L & Y). destruct l; [exact Y|discriminate L]. }
  destruct (close_dressed e base2 dt nmemb Hg Mn Mt Mi Mw (2 ^ 61) (resum t' ts) d f' (merged (S n) c) s I Os (fr_sv _ _ _ _ _ _ _ _ _ G1) (fr_le _ _ _ _ _ _ _ _ _ G1) (fr_tot _ _ _ _ _ _ _ _ _ G1) ltac:(lia) Ds
    ltac:(rewrite Q1; apply (fr_no1 _ _ _ _ _ _ _ _ _ G2)) ltac:(rewrite Q2; exact Qf)) as (f4 & b4 & E4 & O4 & G4 & S4 & F4).
  exists f4, b4. split; [exact E4|]. split; [exact O4|]. split; [exists ts; exact G4|]. split; [|exact F4]. rewrite <- Et. apply S4. apply P.
Qed.

(* all of it *)
Variables (X : Type) (item : block -> fs -> block -> X -> out (Z * fs * block)) (dest : X -> Z * Z) (good : X -> Prop) (rows : list bytes) (n : nat) (whole : bool) (newsize : block -> Z).
Let part x := firstn (Z.to_nat (snd (dest x))) (skipn (Z.to_nat (fst (dest x))) rows).
Let cs := even_split (zlen rows) N.
Hypothesis HN : N = 0 /\ zlen rows = 0 \/ 0 < N.
Hypothesis HN24 : N <= 2 ^ 24.
Hypothesis HsN : zlen rows * N < 2 ^ 64.
Hypothesis Hnew : forall b, b_size b = t_size t -> newsize b = zlen rows.
Hypothesis Hwhole : whole = true -> zlen rows = t_size t.
Hypothesis Hrows : Forall (fun v => length v = Z.to_nat w) rows.
Hypothesis Hsm : zlen rows * nmemb < 2 ^ 63.
Hypothesis Hgood : forall x, good x -> 0 <= fst (dest x) /\ 0 <= snd (dest x) /\ fst (dest x) + snd (dest x) <= zlen rows.
Hypothesis Hitem : forall g b1 b x s t2, good x -> hinv e base1 dt nmemb w t g b1 -> hinv e base2 dt nmemb w t2 g b ->
  exists m, item b1 g (set_attrs b s) x = put_item e g (set_attrs b s) (fst (dest x)) (chunk_array (e_me e) b (snd (dest x))) m /\
    load m 0 (length (concat (part x))) = Some (concat (part x)).

Lemma share_run sched : Forall (fun x => (fst x < n)%nat /\ good (snd x)) sched -> (forall r, (hits r (map (fun x => dest (snd x)) sched) <= 1)%nat) ->
  (t_size t = 0 -> sched = []) ->
  exists f2, share_main e f path newpath blk newblk Nfile whole newsize item n sched = Ret (0, repeat true (length sched), f2) /\
    kept base2 f f2 /\ block_attrs e f2 newpath newblk M /\ even (zlen rows) N cs /\
    ((forall r, 0 <= r < zlen rows -> hits r (map (fun x => dest (snd x)) sched) = 1%nat) -> block_has e f2 newpath newblk dt nmemb cs rows).
Proof.
  intros HF Hh Hs0. pose proof Hmk as [[Hp1 Hp2] _ Mn _ _ Mi Mt Md Mc Mw]. fold base2 in Mn. rewrite Hdn in Mt, Md, Mc, Mw. fold w in Mc, Mw.
  assert (Hiz : 0 < itemsize (e_me e) dt) by apply Md. assert (Hw0 : 0 < w) by (unfold w; nia). pose proof (zlen_nonneg rows) as Hz0.
  assert (Hz63 : zlen rows < 2 ^ 63) by nia.
  assert (Hev : even (zlen rows) N cs).
  { unfold cs. destruct HN as [[E1 E2]|Hpos]; [rewrite E1, E2; split; [reflexivity|split; [reflexivity|constructor]]|apply split_even; lia]. }
  pose proof Hev as (V1 & V2 & V3). assert (N0 : 0 <= N) by lia.
  pose proof (even_layout (zlen rows) N cs ltac:(lia) ltac:(lia) Hev) as Hlo.
  destruct (share_begins cs Hlo ltac:(lia)) as (f1 & f3 & b1 & b2 & s & Eb1 & E1 & E3 & Ec & G1 & G2 & Os & Ds & Hnp & Kf & S2).
  pose proof (fr_inv _ _ _ _ _ _ _ _ _ G1) as I1. pose proof (fr_inv _ _ _ _ _ _ _ _ _ G2) as I2. fold w in I1, I2.
  destruct (hinv_size _ _ _ _ _ _ _ _ I1) as (Es & Ed & En & HL). destruct (hinv_size _ _ _ _ _ _ _ _ I2) as (Es2 & Ed2 & En2 & HL2). cbn [new_table t_sizes] in HL2.
  assert (Hne : resolve base2 <> resolve base1) by (intros Y; apply Hsep; rewrite Y; apply prefix_refl).
  assert (P0 : pinv e base2 dt nmemb n (new_table cs) f3 (fun _ => b2)).
  { assert (Z2 : forall j, (j < length cs)%nat -> nth j (b_fchecksum b2) 0 = 0).
    { intros j Hj. rewrite (hv_sum _ _ _ _ _ _ _ _ I2 j Hj). reflexivity. }
    constructor.
    - intros i Hi. exists (t_sum (new_table cs)). exact I2.
    - cbn [new_table t_sizes]. eapply sums_by; [|exact S2]. intros j Hj. rewrite (Z2 j Hj). rewrite (merged_nth (S n) _ cs e w j (hv_wb _ _ _ _ _ _ _ _ I2) Hj). unfold recorded. rewrite (Z2 j Hj).
      replace (zsum _) with 0; [reflexivity|]. symmetry. generalize (seq 0 (S n)). intros l. induction l as [|i l IH]; [reflexivity|]. cbn [map]. rewrite zsum_cons, IH. reflexivity.
    - intros i j _ _. apply Z2. }
  unfold share_main. rewrite Hop1, Eb1. cbn [bind]. rewrite (hl_Nfile _ _ HL), Ed, En. fold (pieces (zlen (t_sizes t)) Nfile). fold N. rewrite E1. replace (N <? 0) with false by lia.
  rewrite (Hnew b1 Es). fold cs. rewrite V1 in E3. rewrite E3. cbn [bind]. rewrite Es2, Es.
  replace (whole && negb (t_size (new_table cs) =? t_size t)) with false.
  2:{ destruct whole; [|reflexivity]. cbn [andb]. unfold t_size at 1. cbn [new_table t_sizes]. rewrite V2, (Hwhole eq_refl), Z.eqb_refl. reflexivity. }
  rewrite Ec. cbn [bind]. replace (0 <? nmemb) with true by lia. cbn [andb].
  assert (HX : exists t' f' bs' c', (if 0 <? t_size t then run_items (item b1) f3 (fun _ => set_attrs b2 s) sched else Ret ([], f3, fun _ => set_attrs b2 s)) = Ret (repeat true (length sched), f', bs') /\
    (forall i, (i < S n)%nat -> bs' i = set_attrs (c' i) s) /\ pinv e base2 dt nmemb n t' f' c' /\ t_sizes t' = cs /\
    filledby rows (fun r => (0 <? hits r (map (fun x => dest (snd x)) sched))%nat) t' /\ dframe base2 f3 f').
  { assert (F0 : filledby rows (fun _ => false) (new_table cs)) by (intros r Hr; reflexivity).
    destruct (0 <? t_size t) eqn:E0.
    - destruct (items_run e base2 dt nmemb n s Mn Mt Mi Mc Mw Md X (item b1) dest good (fun g => hinv e base1 dt nmemb w t g b1) rows) with (l := sched) (t := new_table cs) (f := f3) (bs := fun _ : nat => set_attrs b2 s) (c := fun _ : nat => b2) (P := fun _ : Z => false)
        as (t' & f' & bs' & c' & R1 & R2 & R3 & _ & R4 & R5 & R6); auto.
      + intros g g' Ig Dg Hd. eapply hinv_same; [|exact Ig]. apply (frames_same base2 base1 g g' Hne Hd); [apply (hv_dir _ _ _ _ _ _ _ _ Ig)|apply dframe_frames; exact Dg].
      + intros g b x t2 Hx Hg1 Hg2. eapply Hitem; eauto.
      + exists t', f', bs', c'. auto 10.
    - assert (T0 : t_size t = 0). { assert (0 <= t_size t) by (unfold t_size; apply zsum_nonneg; apply HL). lia. }
      rewrite (Hs0 T0) in *. exists (new_table cs), f3, (fun _ => set_attrs b2 s), (fun _ => b2). split; [reflexivity|]. split; [reflexivity|]. split; [exact P0|]. split; [reflexivity|]. split; [exact F0|apply dframe_refl]. }
  destruct HX as (t' & f' & bs' & c' & R1 & R2 & R3 & R4 & R5 & R6). rewrite R1. cbn [bind].
  rewrite (merged_ext (S n) bs' (fun i => set_attrs (c' i) s)) by (auto; lia). change (merged (S n) (fun i => set_attrs (c' i) s)) with (set_attrs (merged (S n) c') s).
  destruct (share_closes cs n f3 f' b1 b2 s t' c' G1 G2 Os Ds R6 R3 R4) as (f4 & b4 & E4 & O4 & (ts & G4) & S4 & F4).
  rewrite E4. cbn [bind]. change (negb (0 =? 0)) with false. cbv iota. unfold big_block_close. rewrite (clean_flush e f4 b1 (fr_clean _ _ _ _ _ _ _ _ _ G1) (hv_clean _ _ _ _ _ _ _ _ I1)). cbn [bind].
  exists f4. split; [reflexivity|].
  assert (Fr' : kept base2 f3 f4).
  { eapply kept_trans; apply kept_frames; [apply dframe_frames; exact R6|apply mframe_frames; exact F4]. }
  split; [eapply kept_trans; eauto|]. split; [|split; [exact Hev|]].
  - destruct (fresh_attrs e base2 dt nmemb _ _ _ _ _ M G4 HM) as (names & A1 & A2 & A3 & A4). exists b4, names. split; [exact O4|]. auto.
  - intros Hcov. pose proof (fr_inv _ _ _ _ _ _ _ _ _ G4) as I4. fold w in I4.
    assert (Ets : t_sizes (resum t' ts) = cs) by exact R4. rewrite <- Ets.
    apply (has_of_inv e f4 newpath newblk dt nmemb (resum t' ts) b4 rows Mn Mt Mi Mc Mw Md I4 (fr_clean _ _ _ _ _ _ _ _ _ G4)).
    + unfold big_file_open. destruct newpath as [|c p]; [contradiction|]. rewrite (proj1 Fr' _ Dir); [rewrite strdup_id by exact Hp2; reflexivity| |exact Hnp]. intros Y. exact (own_shorter (c :: p) newblk _ ltac:(discriminate) Y eq_refl).
    + split; [unfold t_size; rewrite Ets; exact (eq_sym V2)|]. split; [exact Hrows|]. intros r v Hr. left. cbn [resum t_row].
      assert ((r < length rows)%nat) by (apply nth_error_Some; congruence). rewrite (R5 (Z.of_nat r)) by (unfold zlen; lia). rewrite Hcov by (unfold zlen; lia). rewrite Nat2Z.id. exact Hr.
    + exact Hsm.
    + rewrite Ets. exact S4.
Qed.
End Main.

(* ------------------------------------------------------------------ the items of the protocol *)
Lemma processed_items n size chunk sched fin : 0 <= size < 2 ^ 62 -> 0 < chunk < 2 ^ 62 -> processed n size chunk sched fin ->
  Forall (fun x => (fst x < n)%nat /\ 0 <= fst (snd x) /\ 0 < snd (snd x) <= chunk /\ fst (snd x) + snd (snd x) <= size) sched /\
  (forall r, (hits r (map snd sched) <= 1)%nat) /\ (size = 0 -> sched = []) /\
  (fin = true -> forall r, 0 <= r < size -> hits r (map snd sched) = 1%nat).
Proof.
  intros Hs Hc [[H0 ->]|(Hp & eager & k & s & R & I & F)].
  { split; [constructor|]. split; [intros; cbn; lia|]. split; [auto|]. intros _ r Hr. lia. }
  destruct (C55_rows eager n size chunk k s ltac:(lia) Hc R) as (X1 & X2 & X3).
  pose proof (cm_reach _ _ _ _ _ _ R) as (Hn & _). pose proof (interleave_perm _ _ I) as Pm. pose proof (interleave_who _ _ I) as W. rewrite map_length, Hn in W.
  assert (Ec : concat (map (fun w => map fst (w_log w)) (c_ws s)) = map fst (all_items s)). { unfold all_items. rewrite concat_map, map_map. reflexivity. }
  rewrite Ec in Pm. assert (Hh : forall r, hits r (map snd sched) = times r (all_items s)) by (intros r; rewrite (hits_perm _ _ _ Pm); apply hits_times).
  split; [|split; [intros r; rewrite Hh; apply X1|split; [lia|intros Hf r Hr; rewrite Hh; apply X3; auto; apply (F Hf)]]].
  apply Forall_forall. intros x Hx. rewrite Forall_forall in W. split; [apply W; exact Hx|].
  assert (Hi : In (snd x) (map fst (all_items s))) by (apply (Permutation_in _ Pm); apply in_map; exact Hx).
  apply in_map_iff in Hi. destruct Hi as (y & <- & Hy). rewrite Forall_forall in X2. apply (X2 y Hy).
Qed.

(* ------------------------------------------------------------------ copying *)
Lemma copy_mpi_run e f path newpath blk newblk dt nmemb Nfile t d b0 M rows n chunk sched fin : let base1 := path_join path blk in let base2 := path_join newpath newblk in
  let w := itemsize (e_me e) dt * nmemb in let N := pieces (zlen (t_sizes t)) Nfile in let cs := even_split (t_size t) N in
  g_clean e -> block_name base1 -> big_file_open f path = Some path -> fresh e base1 dt nmemb (2 ^ 61) t d f b0 -> (forall k, assoc k d = M k) ->
  makeable e f newpath newblk dt nmemb -> ~ prefix_of (resolve base1) (resolve base2) ->
  (N = 0 /\ t_size t = 0 \/ 0 < N) -> N <= 2 ^ 24 -> t_size t * N < 2 ^ 64 -> dtype_normalize (e_me e) dt = dt -> shows_all w t rows ->
  t_size t * nmemb < 2 ^ 63 -> t_size t < 2 ^ 62 -> 0 < chunk < 2 ^ 62 -> processed n (t_size t) chunk sched fin ->
  exists f2, bigfile_copy_mpi e f path newpath blk newblk Nfile n sched = Ret (0, repeat true (length sched), f2) /\
    kept base2 f f2 /\ block_attrs e f2 newpath newblk M /\ even (t_size t) N cs /\
    (fin = true -> block_has e f2 newpath newblk dt nmemb cs rows).
Proof.
  intros base1 base2 w N cs Hg Hbn1 Hop Hfr HM Hmk Hsep HN HN24 HsN Hdn Hsh Hsm H62 Hch Hp. pose proof Hsh as (Z1 & Z2 & Z3).
  assert (H0 : 0 <= t_size t) by (rewrite <- Z1; apply zlen_nonneg).
  destruct (processed_items n (t_size t) chunk sched fin ltac:(lia) Hch Hp) as (P1 & P2 & P3 & P4).
  pose proof Hmk as [_ _ Mn _ _ Mi Mt Md Mc Mw]. fold base2 in Mn. rewrite Hdn in Mt, Md, Mc, Mw. fold w in Mc, Mw.
  assert (Hne : resolve base2 <> resolve base1) by (intros Y; apply Hsep; rewrite Y; apply prefix_refl).
  destruct (share_run e f path newpath blk newblk dt nmemb Nfile t d b0 M Hg Hbn1 Hop Hfr HM Hmk Hsep Hdn (Z * Z)%type (copy_item e) (fun x => x)
    (fun x => 0 <= fst x /\ 0 < snd x <= chunk /\ fst x + snd x <= t_size t) rows n true b_size) with (sched := sched) as (f2 & E & K & A & V & C).
  - rewrite Z1. exact HN.
  - exact HN24.
  - rewrite Z1. exact HsN.
  - intros b ->. symmetry. exact Z1.
  - intros _. exact Z1.
  - exact Z2.
  - rewrite Z1. exact Hsm.
  - intros x Hx. rewrite Z1. lia.
  - intros g b1 b x s t2 (G1 & G2 & G3) I1 I2. cbv beta. fold w in I1, I2. fold base1 in I1. fold base2 in I2.
    destruct (hinv_size _ _ _ _ _ _ _ _ I1) as (Es1 & Ed1 & En1 & HL1). destruct (hinv_size _ _ _ _ _ _ _ _ I2) as (Es2 & Ed2 & En2 & HL2).
    destruct (read_chunk e base1 dt nmemb Hbn1 Mt Mi Mc Mw Md t g b1 (fst x) (snd x) I1 ltac:(lia) ltac:(lia) Hsm ltac:(lia)) as [Hr _].
    replace (Z.min (snd x) (t_size t - fst x)) with (snd x) in Hr by lia.
    destruct (rows_part e dt nmemb Mi t rows (fst x) (snd x) Hsh ltac:(lia) ltac:(lia) ltac:(lia)) as (Y1 & Y2 & Y3).
    destruct (Hr _ Y1 Y2 Y3) as (m & Er & Hm). exists m. split; [|exact Hm].
    unfold copy_item. rewrite Er. cbn [bind]. change (0 =? 0) with true. cbv iota.
    replace (chunk_array (e_me e) b1 (snd x)) with (chunk_array (e_me e) b (snd x)) by (unfold chunk_array; rewrite Ed1, En1, Ed2, En2; reflexivity). reflexivity.
  - eapply Forall_impl; [|exact P1]. intros x Hx. exact Hx.
  - exact P2.
  - exact P3.
  - exists f2. rewrite Z1 in V, C. split; [exact E|]. split; [exact K|]. split; [exact A|]. split; [exact V|]. intros Hf. apply C. intros r Hr. apply P4; auto.
Qed.

(* ------------------------------------------------------------------ sampling: the plan *)
Section Plan.
Variables (G : rng) (all : bool) (K size : Z).
Hypothesis HK : 0 < K.
Notation plan := (plan_from G all K size).

Lemma plan_step s o on k : o < size -> exists seed nsel s', plan s o on (S k) = mkWork o seed (Z.min K (size - o)) on nsel :: plan s' (o + Z.min K (size - o)) (on + nsel) k /\
  (all = true -> nsel = Z.min K (size - o)) /\ (fair G -> 0 < Z.min K (size - o) -> 0 <= nsel).
Proof.
  intros H. cbn [plan_from]. replace (o <? size) with true by lia.
  assert (E : (if size <=? o + K then size - o else K) = Z.min K (size - o)) by (destruct (size <=? o + K) eqn:X; lia). rewrite E.
  destruct (rg_get G s) as [seed s1]. destruct all.
  - exists seed, (Z.min K (size - o)), s1. split; [reflexivity|]. split; [reflexivity|lia].
  - destruct (rg_poisson G s1 (Z.min K (size - o))) as [nsel s2] eqn:Ep. exists seed, nsel, s2. split; [reflexivity|]. split; [discriminate|].
    intros [_ F] _. specialize (F s1 (Z.min K (size - o))). rewrite Ep in F. exact F.
Qed.
Lemma plan_end s o on k : size <= o -> plan s o on k = [].
Proof. intros H. destruct k; [reflexivity|]. cbn [plan_from]. replace (o <? size) with false by lia. reflexivity. Qed.

Definition nsum (l : list work) : Z := zsum (map k_nsel l).
Lemma nsum_cons x l : nsum (x :: l) = k_nsel x + nsum l.
Proof. unfold nsum. cbn [map]. apply zsum_cons. Qed.

(* the i-th entry *)
Lemma plan_nth : forall k s o on i y, nth_error (plan s o on k) i = Some y ->
  k_off y = o + Z.of_nat i * K /\ k_off y < size /\ k_chunk y = Z.min K (size - k_off y) /\ k_new y = on + nsum (firstn i (plan s o on k)) /\ (all = true -> k_nsel y = k_chunk y) /\ (fair G -> 0 <= k_nsel y).
Proof.
  induction k as [|k IH]; intros s o on i y H; [destruct i; discriminate H|].
  destruct (Z.lt_ge_cases o size) as [Ho|Ho]; [|rewrite plan_end in H by exact Ho; destruct i; discriminate H].
  destruct (plan_step s o on k Ho) as (seed & nsel & s' & E & A1 & A2). rewrite E in *. destruct i as [|i]; cbn [nth_error] in H.
  - injection H as <-. cbn [k_off k_chunk k_new k_nsel firstn]. change (nsum []) with 0. split; [lia|]. split; [exact Ho|]. split; [lia|]. split; [lia|]. split; [exact A1|]. intros F. apply A2; auto. lia.
  - destruct (IH _ _ _ _ _ H) as (H1 & H2 & H3 & H4 & H5). cbn [firstn]. rewrite nsum_cons. cbn [k_nsel].
    assert (Z.min K (size - o) = K) by nia. split; [lia|]. split; [exact H2|]. split; [exact H3|]. split; [lia|exact H5].
Qed.

(* every chunk has an entry *)
Lemma plan_has : forall k s o on o', size - o <= Z.of_nat k -> o <= o' < size -> (o' - o) mod K = 0 -> exists y, In y (plan s o on k) /\ k_off y = o' /\ k_chunk y = Z.min K (size - o').
Proof.
  induction k as [|k IH]; intros s o on o' Hk Ho Hm; [lia|].
  destruct (plan_step s o on k ltac:(lia)) as (seed & nsel & s' & E & _). rewrite E.
  destruct (Z.eq_dec o' o) as [->|Hne]; [eexists; split; [left; reflexivity|]; cbn [k_off k_chunk]; lia|].
  assert (Hge : K <= o' - o). { apply Z.divide_pos_le; [lia|]. apply Z.mod_divide; [lia|exact Hm]. }
  destruct (IH s' (o + Z.min K (size - o)) (on + nsel) o') as (y & Y1 & Y2); [lia|lia| |].
  - replace (Z.min K (size - o)) with K by lia. replace (o' - (o + K)) with (o' - o - 1 * K) by lia. rewrite Zminus_mod, Hm, Z.mod_mul by (clear -HK; lia). reflexivity.
  - exists y. split; [right; exact Y1|exact Y2].
Qed.
Lemma plan_after k s o on y : In y (plan s o on k) -> o <= k_off y.
Proof. intros H. apply In_nth_error in H. destruct H as (i & H). apply plan_nth in H. nia. Qed.
Lemma plan_nodup : forall k s o on, NoDup (map k_off (plan s o on k)).
Proof.
  induction k as [|k IH]; intros s o on; [constructor|]. destruct (Z.lt_ge_cases o size) as [Ho|Ho]; [|rewrite plan_end by exact Ho; constructor].
  destruct (plan_step s o on k Ho) as (seed & nsel & s' & E & _). rewrite E. cbn [map]. constructor; [|apply IH]. cbn [k_off]. intros H. apply in_map_iff in H. destruct H as (y & Hy & Hi).
  apply plan_after in Hi. lia.
Qed.
Lemma plan_count : forall k s o on, size - o <= Z.of_nat k -> o <= size -> zlen (plan s o on k) = (size - o + K - 1) / K.
Proof.
  induction k as [|k IH]; intros s o on Hk Ho.
  - cbn. replace (size - o + K - 1) with (K - 1) by lia. rewrite Z.div_small by lia. reflexivity.
  - destruct (Z.lt_ge_cases o size) as [Ho'|Ho']; [|rewrite plan_end by lia; replace (size - o + K - 1) with (K - 1) by lia; rewrite Z.div_small by lia; reflexivity].
    destruct (plan_step s o on k Ho') as (seed & nsel & s' & E & _). rewrite E. rewrite zlen_cons, IH by lia.
    destruct (Z.le_ge_cases K (size - o)).
    + replace (Z.min K (size - o)) with K by lia. replace (size - o + K - 1) with ((size - (o + K) + K - 1) + 1 * K) by lia. rewrite Z.div_add by lia. lia.
    + replace (Z.min K (size - o)) with (size - o) by lia. replace (size - (o + (size - o)) + K - 1) with (K - 1) by lia. rewrite Z.div_small by lia.
      apply (Z.div_unique _ _ _ (size - o - 1)); lia.
Qed.

(* where the chosen rows go: each place once *)
Lemma plan_hits : fair G -> forall k s o on r, hits r (map (fun y => (k_new y, k_nsel y)) (plan s o on k)) = if (on <=? r) && (r <? on + nsum (plan s o on k)) then 1%nat else 0%nat.
Proof.
  intros F. induction k as [|k IH]; intros s o on r; [cbn; replace ((on <=? r) && (r <? on + 0)) with false by lia; reflexivity|].
  destruct (Z.lt_ge_cases o size) as [Ho|Ho]; [|rewrite plan_end by exact Ho; cbn; replace ((on <=? r) && (r <? on + 0)) with false by lia; reflexivity].
  destruct (plan_step s o on k Ho) as (seed & nsel & s' & E & _ & A). rewrite E. cbn [map]. rewrite hits_cons, IH, nsum_cons. cbn [k_new k_nsel fst snd].
  assert (0 <= nsel) by (apply A; auto; lia).
  assert (Hp : 0 <= nsum (plan s' (o + Z.min K (size - o)) (on + nsel) k)).
  { unfold nsum. apply zsum_nonneg. apply Forall_forall. intros z Hz. apply in_map_iff in Hz. destruct Hz as (y & <- & Hy). apply In_nth_error in Hy. destruct Hy as (i & Hy). apply plan_nth in Hy. apply Hy. exact F. }
  destruct (on <=? r) eqn:E1, (r <? on + nsel) eqn:E2, (on + nsel <=? r) eqn:E3, (r <? on + nsel + nsum (plan s' (o + Z.min K (size - o)) (on + nsel) k)) eqn:E4,
    (r <? on + (nsel + nsum (plan s' (o + Z.min K (size - o)) (on + nsel) k))) eqn:E5; cbn [andb Nat.add]; try reflexivity; lia.
Qed.
End Plan.

(* ------------------------------------------------------------------ sampling: choosing *)
Fixpoint pick (G : rng) (s : rg G) (rs : list bytes) (nsel : Z) : list bytes :=
  match rs with
  | [] => []
  | v :: rs' =>
      let '(u, s') := rg_uniform G s (zlen rs) in
      let l := if u <? nsel then [v] else [] in
      let nsel := if u <? nsel then nsel - 1 else nsel in
      l ++ (if nsel =? 0 then [] else pick G s' rs' nsel)
  end.
Lemma pick_length G : fair G -> forall rs s nsel, 0 <= nsel <= zlen rs -> zlen (pick G s rs nsel) = nsel.
Proof.
  intros [F _]. induction rs as [|v rs IH]; intros s nsel H; [cbn in H; assert (nsel = 0) by lia; subst; reflexivity|].
  cbn [pick]. specialize (F s (zlen (v :: rs)) ltac:(rewrite zlen_cons; pose proof (zlen_nonneg rs); lia)). destruct (rg_uniform G s (zlen (v :: rs))) as [u s']. cbn [fst] in F. rewrite zlen_cons in *.
  rewrite zlen_app. destruct (u <? nsel) eqn:E.
  - destruct (nsel - 1 =? 0) eqn:E1; [change (zlen [v]) with 1; change (zlen []) with 0; lia|]. rewrite IH by lia. change (zlen [v]) with 1. lia.
  - destruct (nsel =? 0) eqn:E1; [change (zlen (@nil bytes)) with 0; lia|]. rewrite IH by lia. change (zlen (@nil bytes)) with 0. lia.
Qed.
Lemma subseq_nil {A} (l : list A) : subseq [] l.
Proof. induction l; constructor; auto. Qed.
Lemma pick_subseq G : forall rs s nsel, subseq (pick G s rs nsel) rs.
Proof.
  induction rs as [|v rs IH]; intros s nsel; [constructor|]. cbn [pick]. destruct (rg_uniform G s (zlen (v :: rs))) as [u s'].
  destruct (u <? nsel); cbn [app]; [apply sub_take|apply sub_skip]; destruct (_ =? 0); auto using @subseq_nil.
Qed.
Lemma pick_all G : fair G -> forall rs s, pick G s rs (zlen rs) = rs.
Proof.
  intros F. induction rs as [|v rs IH]; intros s; [reflexivity|]. cbn [pick]. destruct F as [F1 F2]. specialize (F1 s (zlen (v :: rs)) ltac:(rewrite zlen_cons; pose proof (zlen_nonneg rs); lia)).
  destruct (rg_uniform G s (zlen (v :: rs))) as [u s']. cbn [fst] in F1. replace (u <? zlen (v :: rs)) with true by lia. rewrite zlen_cons. replace (1 + zlen rs - 1) with (zlen rs) by lia. cbn [app]. f_equal.
  destruct (zlen rs =? 0) eqn:E; [destruct rs; [reflexivity|rewrite zlen_cons in E; pose proof (zlen_nonneg rs); lia]|apply IH].
Qed.
Lemma subseq_in {A} (l l' : list A) : subseq l l' -> forall x, In x l -> In x l'.
Proof. intros H. induction H; intros y Hy; [exact Hy|right; auto|]. destruct Hy as [->|Hy]; [left; reflexivity|right; auto]. Qed.

(* the loop chooses exactly these *)
Lemma choose_pick G m step : 0 < step -> forall rs s bm p q nsel,
  Forall (fun v => length v = Z.to_nat step) rs -> load m q (length (concat rs)) = Some (concat rs) ->
  fair G -> 0 <= nsel <= zlen rs -> (forall x, p <= x < p + nsel * step -> bm x <> None) -> (rs = [] -> nsel = 0) ->
  exists bm', choose G s m bm p q nsel (zlen rs) step (length rs) = Ret (bm', 0) /\
    load bm' p (length (concat (pick G s rs nsel))) = Some (concat (pick G s rs nsel)) /\
    (forall x, x < p -> bm' x = bm x).
Proof.
  intros Hst. induction rs as [|v rs IH]; intros s bm p q nsel HF Hl F Hn Hb H0.
  { exists bm. rewrite (H0 eq_refl). split; [reflexivity|]. split; [reflexivity|auto]. }
  inversion HF as [|? ? Hv HF']; subst. cbn [concat] in Hl. rewrite app_length in Hl. destruct (load_split _ _ _ _ _ Hl) as [L1 L2].
  rewrite firstn_app, Nat.sub_diag, firstn_all, firstn_O, app_nil_r in L1. rewrite skipn_app, Nat.sub_diag, skipn_all, skipn_O, app_nil_l in L2.
  cbn [choose length pick]. rewrite zlen_cons. pose proof (zlen_nonneg rs) as Hz. rewrite zlen_cons in Hn. replace (1 + zlen rs =? 0) with false by lia.
  pose proof F as [F1 _]. specialize (F1 s (1 + zlen rs) ltac:(lia)). destruct (rg_uniform G s (1 + zlen rs)) as [u s']. cbn [fst] in F1.
  rewrite <- Hv in *. destruct (u <? nsel) eqn:E.
  - rewrite L1. cbn [or_ub bind]. destruct (store_some v bm p) as (bm1 & Es); [intros k Hk; apply Hb; nia|]. rewrite Es. cbn [or_ub bind].
    assert (Ls : load bm1 p (length v) = Some v) by (apply (load_store_same _ _ _ _ Es)).
    destruct (nsel - 1 =? 0) eqn:E0.
    + exists bm1. split; [do 2 f_equal; lia|]. cbn [app concat]. rewrite app_nil_r. split; [exact Ls|]. intros x Hx. apply (store_frame _ _ _ _ Es). lia.
    + destruct (IH s' bm1 (p + step) (q + step) (nsel - 1)) as (bm' & X1 & X2 & X3); auto.
      * rewrite <- L2. f_equal. lia.
      * lia.
      * intros x Hx Y. apply (proj2 (store_domain _ _ _ _ Es x)) in Y. revert Y. apply Hb. nia.
      * intros ->. cbn in *. lia.
      * exists bm'. replace (1 + zlen rs - 1) with (zlen rs) by lia. split; [exact X1|]. split.
        -- cbn [app concat]. rewrite app_length. apply load_app; [|replace (p + Z.of_nat (length v)) with (p + step) by lia; exact X2].
           rewrite <- Ls. apply load_ext. intros k Hk. apply X3. lia.
        -- intros x Hx. rewrite X3 by lia. apply (store_frame _ _ _ _ Es). lia.
  - cbn [bind]. destruct (nsel =? 0) eqn:E0.
    + exists bm. split; [do 2 f_equal; lia|]. split; [reflexivity|auto].
    + destruct (IH s' bm p (q + step) nsel) as (bm' & X1 & X2 & X3); auto.
      * rewrite <- L2. f_equal. lia.
      * lia.
      * intros ->. cbn in *. lia.
      * exists bm'. replace (1 + zlen rs - 1) with (zlen rs) by lia. split; [exact X1|]. split; [exact X2|exact X3].
Qed.

(* ------------------------------------------------------------------ the items lie on a grid *)
Definition on_grid (size K : Z) (x : Z * Z) : Prop := fst x mod K = 0 /\ snd x = Z.min K (size - fst x).
Definition cm_grid (size K : Z) (s : cstate) : Prop :=
  Forall (on_grid size K) (held (c_ws s)) /\
  match c_srv s with S_Recv o c => o mod K = 0 /\ c = K /\ o < size | S_Sent o c _ => o < size -> o mod K = 0 /\ c = K | _ => True end.
Lemma grid_head size K o c : (o < size -> o mod K = 0 /\ c = K) -> match s_head size o c with S_Recv o c => o mod K = 0 /\ c = K /\ o < size | S_Sent o c _ => o < size -> o mod K = 0 /\ c = K | _ => True end.
Proof. intros H. unfold s_head. destruct (o <? size) eqn:E; [|exact I]. destruct H; [lia|]. repeat split; auto. lia. Qed.
Lemma works_work o c l : works (WORK o c :: l) = (o, c) :: works l.
Proof. reflexivity. Qed.
Lemma works_die l : works (DIE :: l) = works l.
Proof. reflexivity. Qed.
Lemma works_nil : works [] = [].
Proof. reflexivity. Qed.
Lemma grid_step eager size K s s' : 0 < K -> cm_grid size K s -> cstep eager size s s' -> cm_grid size K s'.
Proof.
  intros HK [Hh Hs] H. destruct H as
    [s l1 a up down log l2 | s l1 up down log l2 He | s l1 up o c down log l2 | s l1 up down log l2
    |s l1 o c up down log l2 | s l1 o c up down log l2 | o c l1 st up down log l2 Ho | o c l1 st up down log l2 Ho
    |o c l1 st up down log l2 | o c l1 st up down log l2 He | l1 st up down log l2 | l1 st up down log l2 He | l].
  all: unfold cm_grid; cbn [c_srv c_ws] in *.
  all: try rewrite held_mid, !Forall_app in *.
  all: unfold w_items in *; cbn [w_state w_up w_down w_log] in *.
  all: rewrite ?works_app, ?works_work, ?works_die, ?works_nil, ?map_app in *; cbn [map fst] in *; rewrite ?Forall_app, ?Forall_cons_iff in *.
  all: pose proof (Forall_nil (on_grid size K)) as Hnil.
  all: try (split; [tauto|exact Hs]).
  all: try (split; [tauto|exact I]).
  - destruct Hs as (H1 & H2 & H3). subst c. assert (Ec : s_cut size o K = Z.min K (size - o)) by (unfold s_cut; destruct (size <? o + K) eqn:E; lia). split.
    + assert (on_grid size K (o, s_cut size o K)) by (split; [exact H1|exact Ec]). tauto.
    + rewrite Ec. intros H4. assert (Em : Z.min K (size - o) = K) by lia. rewrite Em. split; [|reflexivity]. replace (o + K) with (o + 1 * K) by lia. rewrite Z.mod_add by (clear -HK; lia). exact H1.
  - split; [tauto|]. apply grid_head. exact Hs.
Qed.
Lemma grid_reach eager n size K k s : 0 < size -> 0 < K -> cruns eager size k (c_start n size K) s -> Forall (on_grid size K) (map fst (all_items s)).
Proof.
  intros Hs HK H. assert (Hg : cm_grid size K s).
  { remember (c_start n size K) as s0 eqn:E. revert E. induction H as [s|k s1 s2 s3 H IH Hst]; intros ->; [|apply (grid_step eager size K s2); auto].
    split; [|cbn [c_srv c_start]; apply grid_head; intros _; split; [reflexivity|reflexivity]].
    cbn [c_ws c_start]. unfold held. apply Forall_forall. intros x Hx. apply in_concat in Hx. destruct Hx as (l & H1 & H2). apply in_map_iff in H1. destruct H1 as (w & <- & H1). apply repeat_spec in H1. subst w. destruct H2. }
  destruct Hg as [Hg _]. apply Forall_forall. intros x Hx. apply in_map_iff in Hx. destruct Hx as (y & <- & Hy). rewrite Forall_forall in Hg. apply Hg. apply held_items. exact Hy.
Qed.
Lemma processed_grid n size K sched fin : 0 < K -> processed n size K sched fin -> Forall (fun x => on_grid size K (snd x)) sched.
Proof.
  intros HK [[_ ->]|(Hp & eager & k & s & R & I & F)]; [constructor|]. pose proof (interleave_perm _ _ I) as Pm.
  assert (Ec : concat (map (fun w => map fst (w_log w)) (c_ws s)) = map fst (all_items s)). { unfold all_items. rewrite concat_map, map_map. reflexivity. }
  rewrite Ec in Pm. pose proof (grid_reach _ _ _ _ _ _ Hp HK R) as Hg. rewrite Forall_forall in *. intros x Hx. apply Hg. apply (Permutation_in _ Pm). apply in_map. exact Hx.
Qed.

(* ------------------------------------------------------------------ sampling *)
Lemma incl_perm {A} : forall (l l' : list A), NoDup l -> incl l l' -> exists r, Permutation l' (l ++ r).
Proof.
  induction l as [|x l IH]; intros l' Hn Hi; [exists l'; reflexivity|]. inversion Hn as [|? ? H1 H2]; subst.
  destruct (in_split x l' (Hi x (or_introl eq_refl))) as (a & b & ->). destruct (IH (a ++ b) H2) as (r & Hr).
  - intros y Hy. specialize (Hi y (or_intror Hy)). apply in_app_or in Hi. apply in_or_app. destruct Hi as [Hi|[->|Hi]]; auto. contradiction.
  - exists r. cbn [app]. rewrite <- Hr. symmetry. apply Permutation_middle.
Qed.
Lemma hits_app r l l' : hits r (l ++ l') = (hits r l + hits r l')%nat.
Proof. induction l as [|x l IH]; [reflexivity|]. cbn [app]. rewrite !hits_cons, IH. lia. Qed.
Lemma once_nodup (l : list (Z * Z)) : (forall r, (hits r l <= 1)%nat) -> Forall (fun x => 0 < snd x) l -> NoDup l.
Proof.
  induction l as [|x l IH]; intros H F; [constructor|]. inversion F; subst. constructor.
  - intros Hi. apply in_split in Hi. destruct Hi as (a & b & ->). specialize (H (fst x)). rewrite hits_cons, hits_app, hits_cons in H. replace ((fst x <=? fst x) && (fst x <? fst x + snd x)) with true in H by lia. lia.
  - apply IH; auto. intros r. specialize (H r). rewrite hits_cons in H. lia.
Qed.
Lemma find_off (l : list work) y : NoDup (map k_off l) -> In y l -> find (fun z => (k_off z =? k_off y) && (k_chunk z =? k_chunk y)) l = Some y.
Proof.
  induction l as [|x l IH]; intros Hn Hi; [destruct Hi|]. cbn [map] in Hn. inversion Hn as [|? ? H1 H2]; subst. cbn [find]. destruct Hi as [->|Hi].
  - rewrite !Z.eqb_refl. reflexivity.
  - replace (k_off x =? k_off y) with false; [cbn [andb]; apply IH; auto|]. symmetry. apply Z.eqb_neq. intros X. apply H1. rewrite X. apply in_map. exact Hi.
Qed.
Lemma concat_slice {A} : forall (ls : list (list A)) i l, nth_error ls i = Some l -> firstn (length l) (skipn (length (concat (firstn i ls))) (concat ls)) = l.
Proof.
  induction ls as [|a ls IH]; intros [|i] l H; try discriminate H; cbn [nth_error] in H.
  - injection H as ->. cbn [firstn concat length skipn]. rewrite firstn_app, Nat.sub_diag, firstn_all, firstn_O, app_nil_r. reflexivity.
  - cbn [firstn concat]. rewrite app_length, skipn_app, (skipn_all2 a) by lia. cbn [app]. replace (length a + length (concat (firstn i ls)) - length a)%nat with (length (concat (firstn i ls))) by lia. apply IH. exact H.
Qed.

Section Sample.
Variables (G : rng) (all : bool) (K : Z) (rows : list bytes).
Hypothesis HK : 0 < K.
Hypothesis HG : fair G.
Let size := zlen rows.
Let plan := sample_plan G all K size.
Hypothesis Hquota : forall y, In y plan -> k_nsel y <= k_chunk y.
Let from y := firstn (Z.to_nat (k_chunk y)) (skipn (Z.to_nat (k_off y)) rows).
Let chosen y := pick G (rg_set G (k_seed y)) (from y) (k_nsel y).
Definition sampled : list (list bytes) := map chosen plan.
Let rows2 := concat sampled.

Lemma plan_facts i y : nth_error plan i = Some y ->
  k_off y = Z.of_nat i * K /\ k_off y < size /\ k_chunk y = Z.min K (size - k_off y) /\ k_new y = nsum (firstn i plan) /\ (all = true -> k_nsel y = k_chunk y) /\ 0 <= k_nsel y <= k_chunk y /\
  zlen (from y) = k_chunk y /\ zlen (chosen y) = k_nsel y.
Proof.
  intros H. destruct (plan_nth G all K size HK _ _ _ _ _ _ H) as (H1 & H2 & H3 & H4 & H5 & H6). specialize (H6 HG). pose proof (Hquota y (nth_error_In _ _ H)) as Hq.
  assert (Hf : zlen (from y) = k_chunk y). { unfold from, zlen. rewrite firstn_length, skipn_length. unfold size, zlen in *. lia. }
  split; [lia|]. split; [exact H2|]. split; [exact H3|]. split; [exact H4|]. split; [exact H5|]. split; [lia|]. split; [exact Hf|]. unfold chosen. apply pick_length; auto. lia.
Qed.
Lemma sampled_nsum : forall i, zlen (concat (firstn i sampled)) = nsum (firstn i plan).
Proof.
  intros i. unfold sampled. rewrite firstn_map. assert (Hc : forall y, In y (firstn i plan) -> zlen (chosen y) = k_nsel y).
  { intros y Hy. assert (Hp : In y plan) by (rewrite <- (firstn_skipn i plan); apply in_or_app; left; exact Hy). apply In_nth_error in Hp. destruct Hp as (j & Hj). apply (plan_facts j y Hj). }
  revert Hc. generalize (firstn i plan). intros l. induction l as [|y l IH]; intros Hc; [reflexivity|]. cbn [map concat]. rewrite zlen_app, IH by (intros; apply Hc; right; assumption). rewrite nsum_cons, (Hc y (or_introl eq_refl)). reflexivity.
Qed.
Lemma sampled_all_nsum : zlen rows2 = nsum plan.
Proof. unfold rows2. pose proof (sampled_nsum (length plan)) as H. rewrite !firstn_all2 in H by (unfold sampled; rewrite ?map_length; lia). exact H. Qed.
Lemma sampled_at i y : nth_error plan i = Some y -> firstn (Z.to_nat (k_nsel y)) (skipn (Z.to_nat (k_new y)) rows2) = chosen y.
Proof.
  intros H. destruct (plan_facts i y H) as (_ & _ & _ & H4 & _ & _ & _ & H8). unfold rows2. rewrite <- (concat_slice sampled i (chosen y)) by (unfold sampled; apply map_nth_error; exact H).
  rewrite H4, <- (sampled_nsum i), <- H8. unfold zlen. rewrite !Nat2Z.id. reflexivity.
Qed.

Definition place (x : Z * Z) : Z * Z :=
  match find (fun y => (k_off y =? fst x) && (k_chunk y =? snd x)) plan with Some y => (k_new y, k_nsel y) | None => (0, 0) end.
Lemma size_nonneg : 0 <= size.
Proof. apply zlen_nonneg. Qed.
Lemma grid_entry x : on_grid size K x -> 0 <= fst x < size -> exists i y, find (fun y => (k_off y =? fst x) && (k_chunk y =? snd x)) plan = Some y /\ nth_error plan i = Some y /\ k_off y = fst x /\ k_chunk y = snd x.
Proof.
  intros [H1 H2] Hr. destruct (plan_has G all K size HK (Z.to_nat size) (rg_set G 1984) 0 0 (fst x)) as (y & Y1 & Y2 & Y3); [lia|lia|rewrite Z.sub_0_r; exact H1|].
  rewrite <- H2 in Y3. fold (sample_plan G all K size) in Y1. fold plan in Y1. rewrite <- Y2, <- Y3.
  pose proof (find_off plan y (plan_nodup G all K size HK _ _ _ _) Y1) as Hf. apply In_nth_error in Y1. destruct Y1 as (i & Hi). exists i, y. auto.
Qed.
Lemma place_hits items : Forall (fun x => on_grid size K x /\ 0 <= fst x < size /\ 0 < snd x) items -> (forall r, (hits r items <= 1)%nat) ->
  (forall r, (hits r (map place items) <= 1)%nat) /\
  ((forall r, 0 <= r < size -> hits r items = 1%nat) -> forall r, 0 <= r < zlen rows2 -> hits r (map place items) = 1%nat).
Proof.
  intros HF Hh. set (whole := map (fun y => (k_off y, k_chunk y)) plan).
  assert (Hn : NoDup items) by (apply once_nodup; [exact Hh|eapply Forall_impl; [|exact HF]; intros x Hx; apply Hx]).
  assert (Hi : incl items whole).
  { intros x Hx. rewrite Forall_forall in HF. destruct (HF x Hx) as (X1 & X2 & X3). destruct (grid_entry x X1 X2) as (i & y & _ & Y1 & Y2 & Y3). unfold whole. apply in_map_iff. exists y. split; [|eapply nth_error_In; exact Y1].
    rewrite Y2, Y3. destruct x; reflexivity. }
  assert (Ew : map place whole = map (fun y => (k_new y, k_nsel y)) plan).
  { unfold whole. rewrite map_map. apply map_ext_in. intros y Hy. unfold place. cbn [fst snd]. rewrite (find_off plan y (plan_nodup G all K size HK _ _ _ _) Hy). reflexivity. }
  assert (Hw : forall r, hits r (map place whole) = if (0 <=? r) && (r <? zlen rows2) then 1%nat else 0%nat).
  { intros r. rewrite Ew, sampled_all_nsum. unfold plan, sample_plan. rewrite (plan_hits G all K size HK HG). reflexivity. }
  destruct (incl_perm items whole Hn Hi) as (rest & Hp). split.
  - intros r. specialize (Hw r). rewrite (hits_perm _ _ _ (Permutation_map place Hp)), map_app, hits_app in Hw. destruct (_ && _) in Hw; lia.
  - intros Hc r Hr. rewrite <- (hits_perm r (map place whole)); [rewrite Hw; replace ((0 <=? r) && (r <? zlen rows2)) with true by lia; reflexivity|].
    apply Permutation_map. apply NoDup_Permutation_bis; [|rewrite (Permutation_length Hp), app_length; lia|].
    + unfold whole. apply NoDup_map_inv with (f := fst). rewrite map_map. apply (plan_nodup G all K size HK).
    + intros x Hx. apply in_map_iff in Hx. destruct Hx as (y & <- & Hy). apply In_nth_error in Hy. destruct Hy as (i & Hy). destruct (plan_facts i y Hy) as (F1 & F2 & F3 & _).
      assert (Ho : 0 <= k_off y < size) by nia. assert (Hx : exists x, In x items /\ (fst x <=? k_off y) && (k_off y <? fst x + snd x) = true).
      { specialize (Hc _ Ho). unfold hits in Hc. destruct (filter _ items) as [|x l] eqn:E; [discriminate Hc|]. exists x. apply (proj1 (filter_In (fun x : Z * Z => (fst x <=? k_off y) && (k_off y <? fst x + snd x)) x items)). rewrite E. left. reflexivity. }
      destruct Hx as (x & X1 & X2). rewrite Forall_forall in HF. destruct (HF x X1) as ((X3 & X4) & X5 & X6).
      assert (E : k_off y = fst x).
      { apply andb_true_iff in X2. destruct X2 as [X2 X7]. apply Z.leb_le in X2. apply Z.ltb_lt in X7. apply Z.mod_divide in X3; [|clear -HK; lia]. destruct X3 as [q Eq].
        assert (X8 : Z.of_nat i * K < (q + 1) * K) by (clear -F1 Eq X7 X4; lia). assert (X9 : q * K <= Z.of_nat i * K) by (clear -F1 Eq X2; lia).
        apply Z.mul_lt_mono_pos_r in X8; [|exact HK]. apply Z.mul_le_mono_pos_r in X9; [|exact HK]. rewrite F1, Eq. f_equal. lia. }
      rewrite E in F3. rewrite F3, E, <- X4. destruct x; exact X1.
Qed.
End Sample.
Lemma sampled_full G K rows : 0 < K -> fair G -> concat (sampled G true K rows) = rows.
Proof.
  intros HK HG. unfold sampled, sample_plan. assert (H : forall k s o on, 0 <= o <= zlen rows -> zlen rows - o <= Z.of_nat k ->
    concat (map (fun y => pick G (rg_set G (k_seed y)) (firstn (Z.to_nat (k_chunk y)) (skipn (Z.to_nat (k_off y)) rows)) (k_nsel y)) (plan_from G true K (zlen rows) s o on k)) = skipn (Z.to_nat o) rows).
  { induction k as [|k IH]; intros s o on Ho Hk; [cbn [plan_from map concat]; rewrite skipn_all2 by (unfold zlen in *; lia); reflexivity|].
    destruct (Z.lt_ge_cases o (zlen rows)) as [Hl|Hl]; [|rewrite plan_end by exact Hl; cbn [map concat]; rewrite skipn_all2 by (unfold zlen in *; lia); reflexivity].
    destruct (plan_step G true K (zlen rows) s o on k Hl) as (seed & nsel & s' & E & A & _). specialize (A eq_refl). rewrite E. cbn [map concat k_seed k_chunk k_off k_nsel]. rewrite A in *. set (c := Z.min K (zlen rows - o)) in *.
    rewrite IH by lia. set (l := firstn (Z.to_nat c) (skipn (Z.to_nat o) rows)). assert (El : zlen l = c) by (unfold l, zlen in *; rewrite firstn_length, skipn_length; lia).
    rewrite <- El at 1. rewrite (pick_all G HG). unfold l. replace (skipn (Z.to_nat (o + c)) rows) with (skipn (Z.to_nat c) (skipn (Z.to_nat o) rows)); [apply firstn_skipn|].
    rewrite <- skipn_add. f_equal. lia. }
  apply (H (Z.to_nat (zlen rows)) (rg_set G 1984) 0 0); pose proof (zlen_nonneg rows); lia.
Qed.

Lemma subseq_slice {A} (P : A -> Prop) (l l' : list A) : subseq l l' -> Forall P l' -> Forall P l.
Proof. intros H F. rewrite Forall_forall in *. intros x Hx. apply F. eapply subseq_in; eauto. Qed.

Lemma sample_mpi_run G all K e f path newpath blk newblk dt nmemb Nfile t d b0 M rows n sched fin : let base1 := path_join path blk in let base2 := path_join newpath newblk in
  let w := itemsize (e_me e) dt * nmemb in let N := pieces (zlen (t_sizes t)) Nfile in let rows2 := concat (sampled G all K rows) in let cs := even_split (zlen rows2) N in
  g_clean e -> block_name base1 -> big_file_open f path = Some path -> fresh e base1 dt nmemb (2 ^ 61) t d f b0 -> (forall k, assoc k d = M k) ->
  makeable e f newpath newblk dt nmemb -> ~ prefix_of (resolve base1) (resolve base2) ->
  0 < K < 2 ^ 62 -> fair G -> (forall y, In y (sample_plan G all K (t_size t)) -> k_nsel y <= k_chunk y) ->
  (N = 0 /\ t_size t = 0 \/ 0 < N) -> N <= 2 ^ 24 -> t_size t * N < 2 ^ 64 -> dtype_normalize (e_me e) dt = dt -> shows_all w t rows ->
  t_size t * nmemb < 2 ^ 63 -> t_size t < 2 ^ 62 -> processed n (t_size t) K sched fin ->
  exists f2, bigfile_sample_mpi G all K e f path newpath blk newblk Nfile n sched = Ret (0, repeat true (length sched), f2) /\
    kept base2 f f2 /\ block_attrs e f2 newpath newblk M /\ even (zlen rows2) N cs /\
    (fin = true -> block_has e f2 newpath newblk dt nmemb cs rows2).
Proof.
  intros base1 base2 w N rows2 cs Hg Hbn1 Hop Hfr HM Hmk Hsep HK HG Hq HN HN24 HsN Hdn Hsh Hsm H62 Hp. pose proof Hsh as (Z1 & Z2 & Z3).
  assert (H0 : 0 <= t_size t) by (rewrite <- Z1; apply zlen_nonneg).
  destruct (processed_items n (t_size t) K sched fin ltac:(lia) HK Hp) as (P1 & P2 & P3 & P4). pose proof (processed_grid n (t_size t) K sched fin ltac:(lia) Hp) as P5.
  pose proof Hmk as [_ _ Mn _ _ Mi Mt Md Mc Mw]. fold base2 in Mn. rewrite Hdn in Mt, Md, Mc, Mw. fold w in Mc, Mw.
  assert (Hiz : 0 < itemsize (e_me e) dt) by apply Md. assert (Hw0 : 0 < w) by (unfold w; nia).
  assert (Hne : resolve base2 <> resolve base1) by (intros Y; apply Hsep; rewrite Y; apply prefix_refl).
  rewrite <- Z1 in Hq. pose proof (plan_facts G all K rows ltac:(lia) HG Hq) as PF.
  pose proof (sampled_all_nsum G all K rows ltac:(lia) HG Hq) as En. fold rows2 in En.
  assert (Hle : zlen rows2 <= t_size t).
  { rewrite En, <- Z1. assert (Hsum : forall k s o on, 0 <= o <= zlen rows -> (forall y, In y (plan_from G all K (zlen rows) s o on k) -> k_nsel y <= k_chunk y) -> nsum (plan_from G all K (zlen rows) s o on k) <= zlen rows - o).
    { induction k as [|k IH]; intros s o on Ho Hy; [change (nsum (plan_from G all K (zlen rows) s o on 0)) with 0; lia|].
      destruct (Z.lt_ge_cases o (zlen rows)) as [Hl|Hl]; [|rewrite plan_end by exact Hl; change (nsum []) with 0; lia].
      destruct (plan_step G all K (zlen rows) s o on k Hl) as (seed & nsel & s' & E & _). rewrite E in *. rewrite nsum_cons. pose proof (Hy _ (or_introl eq_refl)) as Y. cbn [k_nsel k_chunk] in *.
      specialize (IH s' (o + Z.min K (zlen rows - o)) (on + nsel) ltac:(lia) (fun y H => Hy y (or_intror H))). lia. }
    specialize (Hsum (Z.to_nat (zlen rows)) (rg_set G 1984) 0 0 ltac:(lia) Hq). unfold sample_plan. lia. }
  pose proof (zlen_nonneg rows2) as Hz2.
  assert (HF2 : Forall (fun v => length v = Z.to_nat w) rows2).
  { unfold rows2, sampled. apply Forall_forall. intros v Hv. apply in_concat in Hv. destruct Hv as (l & L1 & L2). apply in_map_iff in L1. destruct L1 as (y & <- & _). apply (subseq_in _ _ (pick_subseq _ _ _ _)) in L2.
    rewrite Forall_forall in Z2. apply Z2. rewrite <- (firstn_skipn (Z.to_nat (k_off y)) rows). apply in_or_app. right. rewrite <- (firstn_skipn (Z.to_nat (k_chunk y)) (skipn (Z.to_nat (k_off y)) rows)). apply in_or_app. left. exact L2. }
  set (ok := fun x : Z * Z => on_grid (t_size t) K x /\ 0 <= fst x < t_size t /\ 0 < snd x /\ fst x + snd x <= t_size t).
  assert (Hok : Forall (fun x => (fst x < n)%nat /\ ok (snd x)) sched).
  { rewrite Forall_forall in *. intros x Hx. specialize (P1 x Hx). specialize (P5 x Hx). unfold ok. repeat split; try lia; apply P5. }
  destruct (place_hits G all K rows ltac:(lia) HG Hq (map snd sched)) as [PH1 PH2].
  { apply Forall_forall. intros x Hx. apply in_map_iff in Hx. destruct Hx as (y & <- & Hy). rewrite Forall_forall in Hok. destruct (Hok y Hy) as (_ & X1 & X2 & X3 & X4). rewrite Z1. auto. }
  { exact P2. }
  destruct (share_run e f path newpath blk newblk dt nmemb Nfile t d b0 M Hg Hbn1 Hop Hfr HM Hmk Hsep Hdn (Z * Z)%type (sample_item G all K e) (place G all K rows)
    ok rows2 n false (fun b => sample_size G all K (b_size b))) with (sched := sched) as (f2 & E & Kf & A & V & C).
  - destruct HN as [[X1 X2]|X]; [left; split; [exact X1|lia]|right; exact X].
  - exact HN24.
  - fold N. destruct HN as [[X1 X2]|X]; [rewrite X1; lia|nia].
  - intros b ->. rewrite En, Z1. unfold sample_size, nsum. reflexivity.
  - discriminate.
  - exact HF2.
  - nia.
  - intros x (X1 & X2 & X3 & X4). unfold place. rewrite <- Z1 in X1, X2. destruct (grid_entry G all K rows ltac:(lia) x X1 X2) as (i & y & Y1 & Y2 & Y3 & Y4). rewrite Y1. cbn [fst snd].
    destruct (PF i y Y2) as (_ & _ & _ & F4 & _ & F6 & _ & F8).
    assert (Hs1 : nsum (firstn (S i) (sample_plan G all K (zlen rows))) = k_new y + k_nsel y).
    { rewrite F4. clear -Y2. revert i Y2. generalize (sample_plan G all K (zlen rows)). intros l. induction l as [|z l IH]; intros [|i] H; try discriminate H; cbn [nth_error] in H.
      - injection H as ->. cbn [firstn]. rewrite nsum_cons. change (nsum []) with 0. lia.
      - change (firstn (S (S i)) (z :: l)) with (z :: firstn (S i) l). change (firstn (S i) (z :: l)) with (z :: firstn i l). rewrite !nsum_cons, (IH i H). lia. }
    pose proof (sampled_nsum G all K rows ltac:(lia) HG Hq i) as S1. pose proof (sampled_nsum G all K rows ltac:(lia) HG Hq (S i)) as S2.
    rewrite Hs1 in S2. rewrite <- F4 in S1. pose proof (zlen_nonneg (concat (firstn i (sampled G all K rows)))).
    split; [lia|]. split; [lia|]. rewrite <- S2. unfold rows2. rewrite <- (firstn_skipn (S i) (sampled G all K rows)) at 2. rewrite concat_app, zlen_app. pose proof (zlen_nonneg (concat (skipn (S i) (sampled G all K rows)))). lia.
  - intros g b1 b x s t2 (X1 & X2 & X3 & X4) I1 I2. fold w in I1, I2. fold base1 in I1. fold base2 in I2.
    destruct (hinv_size _ _ _ _ _ _ _ _ I1) as (Es1 & Ed1 & En1 & HL1). destruct (hinv_size _ _ _ _ _ _ _ _ I2) as (Es2 & Ed2 & En2 & HL2).
    rewrite <- Z1 in X1, X2. destruct (grid_entry G all K rows ltac:(lia) x X1 X2) as (i & y & Y1 & Y2 & Y3 & Y4).
    unfold sample_item, place. rewrite Es1, <- Z1, Y1. cbn [fst snd]. destruct (PF i y Y2) as (_ & _ & _ & F4 & _ & F6 & F7 & F8).
    pose proof (sampled_at G all K rows ltac:(lia) HG Hq i y Y2) as SA. fold rows2 in SA. rewrite SA. clear SA. rewrite Z1 in *.
    destruct (read_chunk e base1 dt nmemb Hbn1 Mt Mi Mc Mw Md t g b1 (k_off y) (k_chunk y) I1 ltac:(lia) ltac:(lia) Hsm ltac:(lia)) as [Hr _].
    replace (Z.min (k_chunk y) (t_size t - k_off y)) with (k_chunk y) in Hr by lia.
    destruct (rows_part e dt nmemb Mi t rows (k_off y) (k_chunk y) Hsh ltac:(lia) ltac:(lia) ltac:(lia)) as (W1 & W2 & W3).
    destruct (Hr _ W1 W2 W3) as (m & Er & Hm). fold w in W2.
    set (rs := firstn (Z.to_nat (k_chunk y)) (skipn (Z.to_nat (k_off y)) rows)) in *.
    destruct (choose_pick G m w Hw0 rs (rg_set G (k_seed y)) (malloc_mem 0 (w * k_nsel y)) 0 0 (k_nsel y) W2 Hm HG ltac:(lia)) as (bm & C1 & C2 & _).
    { intros a Ha. unfold malloc_mem. replace ((0 <=? a) && (a <? 0 + w * k_nsel y)) with true by nia. discriminate. }
    { intros Y. rewrite Y in W1. cbn in W1. lia. }
    exists bm. split; [|exact C2].
    unfold sample_work. rewrite chunk_array_init by (rewrite Ed1; exact Md). cbn [bind]. rewrite Er. cbn [bind]. change (0 =? 0) with true. cbv iota. rewrite Ed1, En1. fold w.
    replace (Z.to_nat (k_chunk y)) with (length rs) by (unfold zlen in W1; lia). rewrite <- W1 at 1. rewrite C1. cbn [bind]. change (negb (0 =? 0)) with false. cbv iota.
    replace (chunk_array (e_me e) b1 (k_nsel y)) with (chunk_array (e_me e) b (k_nsel y)) by (unfold chunk_array; rewrite Ed1, En1, Ed2, En2; reflexivity). reflexivity.
  - exact Hok.
  - rewrite <- map_map. exact PH1.
  - exact P3.
  - exists f2. split; [exact E|]. split; [exact Kf|]. split; [exact A|]. split; [exact V|]. intros Hf. apply C. rewrite <- map_map. apply PH2. rewrite Z1. apply P4. exact Hf.
Qed.
