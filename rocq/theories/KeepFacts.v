(* What a set of writes leaves alone, whatever their order. *)
From Coq.Strings Require Import Byte String.
From Coq Require Import List ZArith Lia Bool ZifyBool ZifyNat.
From Verif Require Import Base BaseFacts Dtype Cast Array FS Fmt Attr Block Spec SeekFacts FSFacts ArrayFacts ConvFacts WriteFacts ReadFacts
  OpenFacts Par MpiSpec ParFacts SyncFacts VecFacts CollFacts Mpi StepFacts LeadFacts.
Import ListNotations.
Open Scope Z_scope.
Ltac Zify.zify_post_hook ::= Z.div_mod_to_equations.

Section Mask.
Variable I : path -> nat -> Prop.

(* The same but for the bytes in I. *)
Definition alike (f g : fs) : Prop := forall p,
  match fs_get f p, fs_get g p with
  | Some (File c), Some (File c') => length c = length c' /\ forall x, ~ I p x -> nth x c x00 = nth x c' x00
  | Some Dir, Some Dir => True
  | None, None => True
  | _, _ => False
  end.
(* Bytes not in I are kept; files without such bytes do not change. *)
Definition kept (f g : fs) : Prop := forall p,
  match fs_get f p, fs_get g p with
  | Some (File c), Some (File c') => (length c <= length c')%nat /\ (forall x, ~ I p x -> (x < length c)%nat -> nth x c' x00 = nth x c x00) /\ ((forall x, ~ I p x) -> c' = c)
  | Some Dir, Some Dir => True
  | None, None => True
  | _, _ => False
  end.

Lemma alike_refl f : alike f f.
Proof. intros p. destruct (fs_get f p) as [[|c]|]; auto. Qed.
Lemma alike_sym f g : alike f g -> alike g f.
Proof. intros H p. specialize (H p). destruct (fs_get f p) as [[|c]|], (fs_get g p) as [[|c']|]; auto. destruct H as [H1 H2]. split; [auto|]. intros x Hx. symmetry. auto. Qed.
Lemma alike_trans f g h : alike f g -> alike g h -> alike f h.
Proof.
  intros H1 H2 p. specialize (H1 p). specialize (H2 p). destruct (fs_get f p) as [[|c]|], (fs_get g p) as [[|c']|], (fs_get h p) as [[|c2]|]; auto; try contradiction.
  destruct H1 as [A1 A2], H2 as [B1 B2]. split; [congruence|]. intros x Hx. rewrite A2, B2 by auto. reflexivity.
Qed.
Lemma alike_files f g : alike f g -> same_files f g.
Proof. intros H p. specialize (H p). unfold fopen_rp. destruct (fs_get f p) as [[|c]|], (fs_get g p) as [[|c']|]; try contradiction; try tauto; split; discriminate. Qed.
Lemma fs_eq_alike f g : fs_eq f g -> alike f g.
Proof. intros H p. rewrite (H p). destruct (fs_get g p) as [[|c]|]; auto. Qed.
Lemma kept_refl f : kept f f.
Proof. intros p. destruct (fs_get f p) as [[|c]|]; auto. Qed.
Lemma kept_trans f g h : kept f g -> kept g h -> kept f h.
Proof.
  intros H1 H2 p. specialize (H1 p). specialize (H2 p). destruct (fs_get f p) as [[|c]|], (fs_get g p) as [[|c']|], (fs_get h p) as [[|c2]|]; auto; try contradiction.
  destruct H1 as (A1 & A2 & A3), H2 as (B1 & B2 & B3). split; [lia|]. split; [intros x Hx Hl; rewrite B2, A2 by (auto; lia); reflexivity|]. intros Hx. rewrite B3, A3 by auto. reflexivity.
Qed.
Lemma kept_alike f g h : kept f g -> alike g h -> kept f h.
Proof.
  intros H1 H2 p. specialize (H1 p). specialize (H2 p). destruct (fs_get f p) as [[|c]|], (fs_get g p) as [[|c']|], (fs_get h p) as [[|c2]|]; auto; try contradiction.
  destruct H1 as (A1 & A2 & A3), H2 as [B1 B2]. split; [lia|]. split; [intros x Hx Hl; rewrite <- B2, A2 by (auto; lia); reflexivity|].
  intros Hx. rewrite <- A3 by auto. symmetry. apply (nth_ext _ _ x00 x00); [exact B1|]. intros k _. apply B2. apply Hx.
Qed.

(* A write inside I. *)
Definition inside (o : act) : Prop := exists p pos l, o = op_write p pos l /\ forall x, (pos <= x < pos + length l)%nat -> I p x.

Lemma pwrite_alike p c c' pos l : (forall x, (pos <= x < pos + length l)%nat -> I p x) -> length c = length c' -> (forall x, ~ I p x -> nth x c x00 = nth x c' x00) ->
  length (pwrite c pos l) = length (pwrite c' pos l) /\ forall x, ~ I p x -> nth x (pwrite c pos l) x00 = nth x (pwrite c' pos l) x00.
Proof.
  intros HI HL HN. split.
  - destruct l as [|y l]; [exact HL|]. rewrite !pwrite_length by discriminate. lia.
  - intros x Hx. rewrite !nth_pwrite. destruct ((pos <=? x) && (x <? pos + length l))%nat; auto.
Qed.
Lemma inside_respects o : inside o -> respects alike o.
Proof.
  intros (p & pos & l & -> & HI) f g r f' E H. pose proof (E p) as Ep. unfold op_write, fopen_rp in *.
  destruct (fs_get f p) as [[|c]|] eqn:Gf, (fs_get g p) as [[|c']|] eqn:Gg; try contradiction; injection H as <- <-; eexists; (split; [reflexivity|]); auto.
  intros q. destruct (path_eq_dec q p) as [->|Hq].
  - rewrite !fs_get_set_same by (eapply get_proper; eauto). apply pwrite_alike; auto; apply Ep.
  - rewrite !fs_get_set_other by auto. apply E.
Qed.
Lemma inside_kept o f r f' : inside o -> o f = Ret (r, f') -> kept f f'.
Proof.
  intros (p & pos & l & -> & HI) H. unfold op_write, fopen_rp in *.
  destruct (fs_get f p) as [[|c]|] eqn:Gf; injection H as <- <-; try apply kept_refl.
  intros q. destruct (path_eq_dec q p) as [->|Hq].
  - rewrite !fs_get_set_same by (eapply get_proper; eauto). rewrite Gf. split; [|split].
    + destruct l as [|y l]; [reflexivity|]. rewrite pwrite_length by discriminate. lia.
    + intros x Hx _. rewrite nth_pwrite. destruct ((pos <=? x) && (x <? pos + length l))%nat eqn:Ei; auto. exfalso. apply Hx. apply HI. lia.
    + intros Hx. destruct l as [|y l]; [reflexivity|]. exfalso. apply (Hx pos). apply HI. cbn [length]. lia.
  - rewrite !fs_get_set_other by auto. destruct (fs_get f q) as [[|c0]|]; auto.
Qed.
Lemma inside_commute o1 o2 : inside o1 -> inside o2 -> commute alike o1 o2.
Proof.
  intros (p1 & pos1 & l1 & -> & I1) (p2 & pos2 & l2 & -> & I2). split; [|intros f r2 f2 x _ _; destruct (op_write_ret p1 pos1 l1 f) as (r & f' & E); eauto].
  intros f r1 f1 r2 f2 H1 H2. destruct (path_eq_dec p1 p2) as [E|E].
  - subst p2. unfold op_write, fopen_rp in *. destruct (fs_get f p1) as [[|c]|] eqn:Gf; injection H1 as <- <-; injection H2 as <- <-;
      try (rewrite Gf; do 2 eexists; split; [reflexivity|split; [reflexivity|apply alike_refl]]).
    rewrite !fs_get_set_same by (eapply get_proper; eauto). do 2 eexists. split; [reflexivity|]. split; [reflexivity|].
    intros q. destruct (path_eq_dec q p1) as [->|Hq].
    + rewrite !fs_get_set_same by (eapply get_proper; eauto). split.
      * destruct l1 as [|y1 l1]; [reflexivity|]. destruct l2 as [|y2 l2]; [reflexivity|]. rewrite !pwrite_length by discriminate. lia.
      * intros x Hx. rewrite !nth_pwrite. destruct ((pos1 <=? x) && (x <? pos1 + length l1))%nat eqn:E1; [exfalso; apply Hx; apply I1; lia|]. destruct ((pos2 <=? x) && (x <? pos2 + length l2))%nat eqn:E2; [exfalso; apply Hx; apply I2; lia|]. reflexivity.
    + rewrite !fs_get_set_other by auto. destruct (fs_get f q) as [[|c0]|]; auto.
  - destruct (op_write_disjoint p1 pos1 l1 p2 pos2 l2) as [HC _]; [intros X; contradiction|]. destruct (HC f r1 f1 r2 f2 H1 H2) as (g1 & g2 & A & B & D). exists g1, g2. split; [exact A|]. split; [exact B|].
    intros q. rewrite (D q). destruct (fs_get g2 q) as [[|c0]|]; auto.
Qed.
Lemma inside_good l : (forall i o, In (i, o) l -> inside o) -> good alike l.
Proof. intros H. split; [intros i o Hi; apply inside_respects; eauto|intros i o j o' Hi Hj _; apply inside_commute; eauto]. Qed.

Lemma run_kept {A} N m (s : config A) l s' : run N m s l s' -> (forall i o, In (i, o) l -> inside o) -> kept (g_fs s) (g_fs s').
Proof.
  induction 1 as [s|s i s1 n l s2 St R IH]; intros H; [apply kept_refl|].
  eapply kept_trans; [|apply IH; intros; eapply H; apply in_or_app; right; eauto].
  destruct St as [c x k A1 A2 A3 A4 A5 A6 A7 A8 A9|c x k n0 r A1 A2 A3 A4 A5 A6 A7 A8 A9 A10|o k r f A1 A2 A3 A4 A5 A6 A7 A8 A9].
  - rewrite A8. apply kept_refl.
  - rewrite A10. apply kept_refl.
  - rewrite A8. eapply inside_kept; [|exact A4]. apply (H i). apply in_or_app. left. unfold act_of. rewrite A2. left. reflexivity.
Qed.
Lemma ran_kept N l f g : ran N l f g -> (forall i o, In (i, o) l -> inside o) -> kept f g.
Proof. intros (A & s & s' & m & R & <- & <-) HI. eapply run_kept; eauto. Qed.
End Mask.

(* The bytes of rows lo .. hi-1. *)
Definition row_bytes (base : bytes) (sizes : list Z) (w lo hi : Z) (p : path) (x : nat) : Prop :=
  exists i q r, p = data_path base (Z.of_nat i) /\ home sizes r = Some (i, q) /\ lo <= r < hi /\ q * w <= Z.of_nat x < (q + 1) * w.

Lemma row_write_inside base sizes w lo hi o : Forall (fun s => 0 <= s) sizes -> 0 < w -> row_write base sizes w lo hi o -> inside (row_bytes base sizes w lo hi) o.
Proof.
  intros Hs Hw (r & k & q & c & l & A1 & A2 & A3 & A4 & A5 & A6 & ->). eexists _, _, _. split; [reflexivity|]. intros x Hx.
  pose proof A1 as A0. apply home_spec in A0; auto. destruct A0 as (B1 & B2 & B3). unfold zlen in A6.
  set (d := Z.of_nat x / w - q). assert (Hd : 0 <= d < c).
  { unfold d. split; [|].
    - assert (q <= Z.of_nat x / w) by (apply Z.div_le_lower_bound; nia). lia.
    - assert (Z.of_nat x / w < q + c) by (apply Z.div_lt_upper_bound; nia). lia. }
  exists k, (q + d), (r + d). split; [reflexivity|]. split; [apply home_next; auto; lia|]. split; [lia|]. unfold d. pose proof (Z.div_mod (Z.of_nat x) w ltac:(lia)). pose proof (Z.mod_pos_bound (Z.of_nat x) w Hw). nia.
Qed.

Lemma kept_spares base sizes w lo hi f g : Forall (fun s => 0 <= s) sizes -> zlen sizes < 2 ^ 31 -> 0 < w -> kept (row_bytes base sizes w lo hi) f g -> spares base sizes w lo hi f g.
Proof.
  intros Hs Hn Hw HK. split.
  - intros p Hp. specialize (HK p). assert (HX : forall x, ~ row_bytes base sizes w lo hi p x).
    { intros x (i & q & r & E & Hh & _). apply home_spec in Hh; auto. apply (Hp i); [apply Hh|exact E]. }
    destruct (fs_get f p) as [[|c]|], (fs_get g p) as [[|c']|]; try contradiction; auto. destruct HK as (_ & _ & H). rewrite H by auto. reflexivity.
  - intros r v Hr Hv. unfold stored_row in *. destruct (home sizes r) as [[i q]|] eqn:Hh; [|discriminate]. unfold data_file in *. specialize (HK (data_path base (Z.of_nat i))).
    destruct (fs_get f (data_path base (Z.of_nat i))) as [[|c]|]; try discriminate. destruct (fs_get g (data_path base (Z.of_nat i))) as [[|c']|]; try contradiction. destruct HK as (K1 & K2 & _).
    destruct (Z.leb_spec ((q + 1) * w) (zlen c)) as [L|L]; [|discriminate]. unfold zlen in *. replace ((q + 1) * w <=? Z.of_nat (length c')) with true by lia. rewrite <- Hv. f_equal.
    pose proof Hh as Hh0. apply home_spec in Hh0; auto. destruct Hh0 as (Hi & Hq & Hf).
    assert (Hqw : 0 <= q * w) by nia. apply (nth_ext _ _ x00 x00); [rewrite !firstn_length, !skipn_length; nia|].
    intros x Hx. rewrite firstn_length, skipn_length in Hx. rewrite !nth_firstn' by nia. rewrite !nth_skipn'. apply K2; [|nia].
    intros (i2 & q2 & r2 & E & Hh2 & Hr2 & Hb). pose proof Hh2 as Hh3. apply home_spec in Hh3; auto. destruct Hh3 as (Hi2 & Hq2 & Hf2).
    apply data_path_inj in E; try (unfold zlen in Hn; lia). assert (i2 = i) by lia. subst i2.
    assert (q2 = q) by nia. subst q2. assert (r2 = r) by lia. lia.
Qed.
Lemma alike_spares base sizes w lo hi f g h : Forall (fun s => 0 <= s) sizes -> zlen sizes < 2 ^ 31 -> 0 < w -> kept (row_bytes base sizes w lo hi) f g -> alike (row_bytes base sizes w lo hi) g h -> spares base sizes w lo hi f h.
Proof. intros. apply kept_spares; auto. eapply kept_alike; eauto. Qed.
