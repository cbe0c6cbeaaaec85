(* Histories of collective operations. *)
From Coq.Strings Require Import Byte String.
From Coq Require Import List ZArith Lia Bool ZifyBool ZifyNat.
From Verif Require Import Base BaseFacts Dtype Cast Array FS Fmt Attr Block Pack Spec AttrSpec OpenSpec PackSpec DtypeFacts SeekFacts FSFacts ArrayFacts ConvFacts WriteFacts ReadFacts
  TableFacts IOFacts OpenFacts AttrFacts PackFacts ReopenFacts FrameFacts Par MpiSpec ParFacts SyncFacts VecFacts CollFacts Mpi SegFacts StepFacts HistSpec HistFacts AggFacts LoopFacts LeadFacts MpiFacts AgreeFacts HandleFacts CHistSpec.
Import ListNotations.
Open Scope Z_scope.
Ltac Zify.zify_post_hook ::= Z.div_mod_to_equations.

(* -------------------------------------------------------- serial handles *)
Lemma in_le_zsum l x : Forall (fun s => 0 <= s) l -> In x l -> x <= zsum l.
Proof.
  induction 1 as [|y l Hy Hl IH]; [intros []|]. pose proof (zsum_nonneg _ Hl) as Z. unfold zsum in *. cbn [fold_right] in *. intros [->|H]; [lia|]. specialize (IH H). lia.
Qed.
Lemma nth_first (l : list Z) n j d : (j < n)%nat -> nth j (firstn n l) d = nth j l d.
Proof. revert n j. induction l as [|x l IH]; intros [|n] [|j] H; cbn [firstn nth]; try lia; auto. apply IH. lia. Qed.
(* The same table with other sums. *)
Definition resum (t : table) (ts : nat -> Z) : table := mkTab (t_sizes t) (t_row t) ts.

(* Another handle of the same block, whose header has yet to be written. *)
Lemma hinv_other e base dt nmemb w t f v b : hinv e base dt nmemb w t f v ->
  b_base b = base -> b_dtype b = dt -> b_nmemb b = nmemb -> wblock e b (t_sizes t) w ->
  b_dirty b = true -> as_dirty (b_attrset b) = false ->
  exists ts, hinv e base dt nmemb w (resum t ts) f b.
Proof.
  intros I E1 E2 E3 HW D A. exists (fun i => if (i <? length (t_sizes t))%nat then nth i (b_fchecksum b) 0 else 0).
  destruct I. constructor; cbn [resum t_sizes t_row t_sum]; auto.
  - intros X. congruence.
  - intros i Hi. replace (i <? length (t_sizes t))%nat with true by (symmetry; apply Nat.ltb_lt; exact Hi).
    pose proof (wb_layout _ _ _ _ HW) as HL. pose proof (hl_cksr _ _ HL) as R. rewrite Forall_forall in R.
    symmetry. apply Z.mod_small. apply R. apply nth_In. rewrite (hl_cks _ _ HL). lia.
  - intros i Hi. replace (i <? length (t_sizes t))%nat with false by (symmetry; apply Nat.ltb_ge; exact Hi). reflexivity.
Qed.

(* Rows are written by somebody else. *)
Lemma hinv_rows e base dt nmemb w t f g v o rows : hinv e base dt nmemb w t f v -> 0 <= o -> o + zlen rows <= t_size t ->
  Forall (fun u => length u = Z.to_nat w) rows -> fs_eq g (put_rows f base (t_sizes t) w o rows) ->
  hinv e base dt nmemb w (resum (with_rows t o rows) (t_sum t)) g v.
Proof.
  intros I Ho Hin Wr F.
  pose proof (hv_wb _ _ _ _ _ _ _ _ I) as HW. pose proof (wb_layout _ _ _ _ HW) as HL. pose proof (wb_wpos _ _ _ _ HW) as Hwp.
  pose proof (hv_files _ _ _ _ _ _ _ _ I) as Hfe. pose proof (hv_whole _ _ _ _ _ _ _ _ I) as Hwh.
  set (sizes := t_sizes t) in *.
  assert (R1 : forall j u, nth_error rows j = Some u -> stored_row g base sizes w (o + Z.of_nat j) = Some u).
  { intros j u Hj. rewrite (stored_row_ext _ _ _ _ _ _ F). apply stored_puts_same; auto; try apply HL; unfold t_size in *; subst sizes; lia. }
  assert (R2 : forall r u, r < o \/ o + zlen rows <= r -> stored_row f base sizes w r = Some u -> stored_row g base sizes w r = Some u).
  { intros r u Hr Hs. rewrite (stored_row_ext _ _ _ _ _ _ F). apply stored_puts_other; auto; try apply HL; unfold t_size in *; subst sizes; lia. }
  assert (R3 : forall r u, r < o \/ o + zlen rows <= r -> stored_row f base sizes w r = None -> stored_row g base sizes w r = Some u ->
     u = repeat x00 (Z.to_nat w) /\ exists r2, o <= r2 < o + zlen rows /\ r < r2 /\ same_file sizes r2 r).
  { intros r u Hr Hs Hu. rewrite (stored_row_ext _ _ _ _ _ _ F) in Hu. eapply stored_puts_zero in Hu; eauto; try apply HL. }
  assert (Fr : forall q, (forall i, (i < length sizes)%nat -> q <> data_path base (Z.of_nat i)) -> fs_get g q = fs_get f q).
  { intros q Hq. rewrite F. apply put_rows_frame_exact. intros r i k Hr Hhm. apply Hq. apply home_lt in Hhm. tauto. }
  assert (Fe : files_exist g base sizes) by (eapply files_ext; [apply fs_eq_sym; exact F|]; apply put_rows_files; auto; apply HL).
  assert (Wh : whole_rows g base sizes w) by (eapply whole_ext; [apply fs_eq_sym; exact F|]; apply put_rows_whole; auto; apply HL).
  set (t' := resum (with_rows t o rows) (t_sum t)).
  assert (Hrow' : forall r, t_row t' r = if (o <=? r) && (r <? o + zlen rows) then nth_error rows (Z.to_nat (r - o)) else t_row t r) by reflexivity.
  assert (Hc : Z.of_nat (length sizes) < 2 ^ 31) by (pose proof (hl_count _ _ HL) as X; unfold zlen in X; exact X).
  constructor; cbn [t' resum with_rows t_sizes t_sum]; fold sizes; auto; try apply I.
  - destruct (hv_dir _ _ _ _ _ _ _ _ I) as (D1 & D2 & D3 & D4). split; [|split; [|split]].
    + rewrite Fr; auto. intros i Hi. apply base_not_file. apply print_06X_plain. lia.
    + rewrite Fr; auto. intros i Hi X. symmetry in X. revert X. apply data_not_header. lia.
    + rewrite Fr; auto. intros i Hi X. symmetry in X. revert X. apply data_not_attr2. lia.
    + intros i Hi. destruct (touched_dec base sizes (data_path base i)) as [(k & Hk & ->)|Hno].
      * specialize (Fe k Hk). unfold data_file in Fe. intros X. rewrite X in Fe. congruence.
      * rewrite Fr; auto.
  - intros r v0 Hv. change (t_row (resum (with_rows t o rows) (t_sum t)) r) with (t_row t' r) in Hv. rewrite Hrow' in Hv.
    destruct ((o <=? r) && (r <? o + zlen rows)) eqn:Er.
    + apply R1 in Hv. rewrite <- Hv. f_equal. lia.
    + apply R2; [lia|]. exact (hv_row _ _ _ _ _ _ _ _ I _ _ Hv).
  - intros r v0 Hv.
    destruct ((o <=? r) && (r <? o + zlen rows)) eqn:Er.
    + left. rewrite Hrow', Er. destruct (nth_error rows (Z.to_nat (r - o))) as [u|] eqn:Eu.
      * pose proof (R1 _ _ Eu) as X. replace (o + Z.of_nat (Z.to_nat (r - o))) with r in X by lia. congruence.
      * apply nth_error_None in Eu. unfold zlen in *. lia.
    + assert (Hsf : forall r2, t_row t r2 <> None -> t_row t' r2 <> None).
      { intros r2 H2. rewrite Hrow'. destruct ((o <=? r2) && (r2 <? o + zlen rows)) eqn:Er2; auto.
        intros X. apply nth_error_None in X. unfold zlen in *. lia. }
      destruct (stored_row f base sizes w r) as [u|] eqn:Es.
      * assert (u = v0) by (specialize (R2 r u ltac:(lia) Es); congruence). subst u.
        destruct (hv_zero _ _ _ _ _ _ _ _ I _ _ Es) as [X|(X1 & X2 & r2 & X3 & X4 & X5)].
        -- left. rewrite Hrow', Er. auto.
        -- right. rewrite Hrow', Er. split; auto. split; auto. exists r2. split; auto.
      * apply (R3 r v0 ltac:(lia) Es) in Hv. destruct Hv as (-> & r2 & Hr2 & Hlt & Hsame).
        destruct (t_row t r) as [u|] eqn:Et.
        { apply (hv_row _ _ _ _ _ _ _ _ I) in Et. subst sizes. congruence. }
        right. rewrite Hrow', Er. split; auto. split; auto. exists r2. split; auto. split.
        -- destruct Hsame as (i & q & q' & A & B). exists i, q', q. auto.
        -- rewrite Hrow'. replace ((o <=? r2) && (r2 <? o + zlen rows)) with true by lia.
           intros X. apply nth_error_None in X. unfold zlen in *. lia.
  - intros D. rewrite Fr; [apply I; exact D|]. intros i Hi X. symmetry in X. revert X. apply data_not_header. lia.
  - destruct (hv_att _ _ _ _ _ _ _ _ I) as (s & Hs & Hd). exists s. split; auto. rewrite <- Hs.
    apply open_attrs_frame; apply Fr; intros i Hi X; symmetry in X; revert X; [apply data_not_attr1|apply data_not_attr2]; lia.
Qed.

(* ---------------------------------------------------- handles of one block *)
Lemma same_wblock e e' b b' sizes w : e_me e = e_me e' -> same_handle b b' -> wblock e b sizes w -> wblock e' b' sizes w.
Proof.
  intros Em [] []. destruct wb_layout.
  assert (F1 : b_fsize b <> []) by (rewrite hl_fsize; destruct sizes; discriminate).
  assert (F2 : b_foffset b <> []) by (rewrite hl_foffset; discriminate).
  assert (F3 : b_fchecksum b <> []) by (intros X; rewrite X in hl_cks; discriminate hl_cks).
  constructor; [constructor|..]; rewrite <- ?Em; try congruence.
  - rewrite sh_fsize; auto.
  - rewrite sh_foffset; auto.
  - rewrite sh_fchecksum; auto.
  - rewrite sh_fchecksum; auto.
Qed.
Lemma me_wblock e e' b sizes w : e_me e = e_me e' -> wblock e b sizes w -> wblock e' b sizes w.
Proof. intros Em []. constructor; rewrite <- ?Em; auto. Qed.
Lemma same_cks e b b' sizes w : same_handle b b' -> wblock e b sizes w -> b_fchecksum b' = b_fchecksum b.
Proof. intros [] []. apply sh_fchecksum. intros X. destruct wb_layout. rewrite X in hl_cks. discriminate hl_cks. Qed.

(* A handle of this block that can be sent still can be with other checksums. *)
Lemma send_cks me e b sizes w cks d : transferable me b -> wblock e b sizes w -> wblock e (set_checksums (set_bdirty b d) cks) sizes w ->
  transferable me (set_checksums (set_bdirty b d) cks).
Proof.
  intros [F A] _ HW. split; [|exact A]. pose proof (wb_layout _ _ _ _ HW) as HL. destruct F. constructor; auto.
  cbn [set_checksums set_bdirty b_fchecksum b_Nfile] in *. destruct HL. cbn [set_checksums set_bdirty b_fchecksum b_Nfile] in *. split; [|exact hl_cksr].
  right. unfold zlen in *. lia.
Qed.
Lemma like_handle e b b' sizes w me : like b b' -> wblock e b' sizes w -> wblock e b sizes w -> transferable me b -> transferable me b'.
Proof. intros (cks & d & -> & _) HW' HW T. eapply send_cks; eauto. Qed.

Lemma set_bdirty_same b : b_dirty b = false -> set_bdirty b false = b.
Proof. destruct b; cbn. intros ->. reflexivity. Qed.

(* Nothing to write. *)
Lemma flush_clean e f b : b_dirty b = false -> as_dirty (b_attrset b) = false -> big_block_flush e f b = Ret (0, f, b).
Proof. intros D A. unfold big_block_flush. rewrite D. cbn [bind]. change (negb (0 =? 0)) with false. cbv iota. rewrite A. reflexivity. Qed.

(* The handle rank 0 flushes. *)
Lemma merged_wblock N e b sizes w : (0 < N)%nat -> (forall i, (i < N)%nat -> wblock (e i) (b i) sizes w) -> wblock (e 0%nat) (merged N b) sizes w.
Proof.
  intros HN HW. pose proof (HW 0%nat HN) as W0. pose proof (wb_layout _ _ _ _ W0) as HL. unfold merged.
  set (n := Z.to_nat (b_Nfile (b 0%nat))). assert (En : n = length sizes) by (unfold n; rewrite (hl_Nfile _ _ HL); unfold zlen; lia).
  destruct W0. constructor; auto. apply layout_set_cks; [apply layout_set_dirty; exact HL| |].
  - rewrite app_length, map_length, seq_length, skipn_length, (hl_cks _ _ HL), En. lia.
  - apply Forall_app. split.
    + apply Forall_forall. intros x Hx. apply in_map_iff in Hx. destruct Hx as (j & <- & _). apply Z.mod_pos_bound. reflexivity.
    + pose proof (hl_cksr _ _ HL) as R. rewrite Forall_forall in *. intros x Hx. apply R. rewrite <- (firstn_skipn n (b_fchecksum (b 0%nat))). apply in_or_app. right. exact Hx.
Qed.
Lemma merged_nth N b sizes e w j : wblock e (b 0%nat) sizes w -> (j < length sizes)%nat -> nth j (b_fchecksum (merged N b)) 0 = recorded N b j mod 2 ^ 32.
Proof.
  intros HW Hj. pose proof (wb_layout _ _ _ _ HW) as HL. unfold merged. cbn [set_checksums b_fchecksum].
  assert (En : Z.to_nat (b_Nfile (b 0%nat)) = length sizes) by (rewrite (hl_Nfile _ _ HL); unfold zlen; lia). rewrite En.
  rewrite app_nth1 by (rewrite map_length, seq_length; exact Hj).
  rewrite (nth_indep _ 0 (recorded N b 0%nat mod 2 ^ 32)) by (rewrite map_length, seq_length; exact Hj).
  rewrite (map_nth (fun j => recorded N b j mod 2 ^ 32)). rewrite seq_nth by exact Hj. reflexivity.
Qed.
Lemma merged_dirty N b : b_dirty (merged N b) = existsb (fun i => b_dirty (b i)) (seq 0 N).
Proof. reflexivity. Qed.

(* ------------------------------------------------------------ invariant *)
Section Hist.
Variables (N : nat) (me : endian) (thr : Z) (junk : nat -> nat -> nat -> nat -> byte) (nbase : nat -> nat -> Z) (e : nat -> env).
Variables (base dt : bytes) (nmemb w : Z).
Hypothesis HN : (0 < N)%nat.
Hypothesis Hme : forall i, (i < N)%nat -> e_me (e i) = me.
Hypothesis Hbn : block_name base.
Hypothesis Hty : header_type dt.
Hypothesis Hnm31 : 0 < nmemb < 2 ^ 31.
Hypothesis Hwc : forall i, (i < N)%nat -> w <= e_chunk (e i).
Hypothesis Hw31 : w < 2 ^ 31.
Hypothesis Hw : w = itemsize me dt * nmemb.
Hypothesis Hnb : nul_free base.

(* The block has no attributes. *)
Definition bare (f : fs) : Prop := no_attributes f base.

Record cinv (t : table) (f : fs) (b : nat -> block) : Prop := {
  ci_base : forall i, (i < N)%nat -> b_base (b i) = base;
  ci_dt : forall i, (i < N)%nat -> b_dtype (b i) = dt;
  ci_nm : forall i, (i < N)%nat -> b_nmemb (b i) = nmemb;
  ci_wb : forall i, (i < N)%nat -> wblock (e i) (b i) (t_sizes t) w;
  ci_v : exists v ts, hinv (e 0%nat) base dt nmemb w (resum t ts) f v /\ (b_dirty v = true -> exists i, (i < N)%nat /\ b_dirty (b i) = true);
  ci_send : transferable me (b 0%nat);
  ci_clean : as_dirty (b_attrset (b 0%nat)) = false;
  ci_bare : bare f
}.

Lemma cinv_handles t f b : cinv t f b -> handles N base dt nmemb t b.
Proof.
  intros I i Hi. pose proof (wb_layout _ _ _ _ (ci_wb _ _ _ I i Hi)) as HL. split; [apply I; exact Hi|]. split; [apply I; exact Hi|]. split; [apply I; exact Hi|]. split; [apply HL|exact HL].
Qed.

(* All ranks get a handle that has just been written. *)
Lemma cinv_handed t ts f v b1 b : hinv (e 0%nat) base dt nmemb w (resum t ts) f v ->
  (b_dirty v = true -> exists i, (i < N)%nat /\ b_dirty (b i) = true) ->
  b_base b1 = base -> b_dtype b1 = dt -> b_nmemb b1 = nmemb -> wblock (e 0%nat) b1 (t_sizes t) w -> as_dirty (b_attrset b1) = false ->
  transferable me b1 -> bare f -> (forall i, (i < N)%nat -> handed b1 i (b i)) -> cinv t f b.
Proof.
  intros I D M1 M2 M3 M4 M5 T B H. assert (E0 : b 0%nat = b1) by (apply (proj2 (H 0%nat HN)); reflexivity).
  assert (S : forall i, (i < N)%nat -> same_handle b1 (b i)) by (intros i Hi; apply (H i Hi)).
  constructor.
  - intros i Hi. rewrite (sh_base _ _ (S i Hi)). exact M1.
  - intros i Hi. rewrite (sh_dtype _ _ (S i Hi)). exact M2.
  - intros i Hi. rewrite (sh_nmemb _ _ (S i Hi)). exact M3.
  - intros i Hi. eapply same_wblock; [|apply S; exact Hi|exact M4]. rewrite !Hme by auto. reflexivity.
  - exists v, ts. auto.
  - rewrite E0. exact T.
  - rewrite E0. exact M5.
  - exact B.
Qed.

(* ---------------------------------------------------------------- steps *)
Definition result := (nat -> hres * block)%type.
(* What the ranks have recorded together is right, and so is the header unless
   somebody is going to write it. *)
Definition tracked (t : table) (f : fs) (b : nat -> block) : Prop :=
  sums_ok f base (t_sizes t) (b_fchecksum (merged N b)) /\
  ((forall i, (i < N)%nat -> b_dirty (b i) = false) -> exists v ts, hinv (e 0%nat) base dt nmemb w (resum t ts) f v /\ b_dirty v = false /\
     forall j, (j < length (t_sizes t))%nat -> nth j (b_fchecksum v) 0 = nth j (b_fchecksum (merged N b)) 0).
Definition conce (t : table) (op : cop) : Prop :=
  match op with CWrite p _ a _ => forall q, p <= q < p + total N (rank_rows a) -> t_row t q = None | _ => True end.
Definition step_to (t : table) (op : cop) (f : fs) (b : nat -> block) (res : result) (g : fs) : Prop :=
  exists t', cspec N me dt nmemb t op (fun i => fst (res i)) t' /\ cinv t' g (fun i => snd (res i)) /\ t_sizes t' = csizes_after (t_sizes t) op /\
    (N = 1%nat \/ transfer op -> conce t op -> tracked t f b -> tracked t' g (fun i => snd (res i))).

(* With one rank nothing is counted twice. *)
Lemma merged_alone b sizes j : N = 1%nat -> wblock (e 0%nat) (b 0%nat) sizes w -> (j < length sizes)%nat ->
  nth j (b_fchecksum (merged N b)) 0 = nth j (b_fchecksum (b 0%nat)) 0.
Proof.
  intros E1 HW Hj. rewrite (merged_nth N b sizes _ w j HW Hj). unfold recorded. rewrite E1. cbn [seq map]. rewrite zsum_cons. change (zsum []) with 0. rewrite Z.add_0_r.
  pose proof (wb_layout _ _ _ _ HW) as HL. pose proof (hl_cksr _ _ HL) as R. rewrite Forall_forall in R. apply Z.mod_small. apply R. apply nth_In. rewrite (hl_cks _ _ HL). lia.
Qed.
Lemma sums_by f base0 sizes cks cks' : (forall j, (j < length sizes)%nat -> nth j cks' 0 = nth j cks 0) -> sums_ok f base0 sizes cks -> sums_ok f base0 sizes cks'.
Proof. intros H S i c Hi Hc. rewrite H by exact Hi. apply S; assumption. Qed.

Lemma exists_dirty b : existsb (fun i => b_dirty (b i)) (seq 0 N) = true <-> exists i, (i < N)%nat /\ b_dirty (b i) = true.
Proof.
  rewrite existsb_exists. split.
  - intros (i & Hi & D). apply in_seq in Hi. exists i. split; [lia|exact D].
  - intros (i & Hi & D). exists i. split; [apply in_seq; lia|exact D].
Qed.

(* Flushing: the file system afterwards, and the handle that is sent. *)
Lemma flush_ready t f b : cinv t f b -> exists f1 ts, big_block_flush (e 0%nat) f (merged N b) = Ret (0, f1, set_bdirty (merged N b) false) /\
  (exists v, hinv (e 0%nat) base dt nmemb w (resum t ts) f1 v /\ b_dirty v = false) /\ bare f1 /\ transferable me (set_bdirty (merged N b) false) /\
  ((exists i, (i < N)%nat /\ b_dirty (b i) = true) -> hinv (e 0%nat) base dt nmemb w (resum t ts) f1 (set_bdirty (merged N b) false)) /\
  (forall i c, data_file f1 base i = Some c <-> data_file f base i = Some c) /\
  ((forall i, (i < N)%nat -> b_dirty (b i) = false) -> f1 = f).
Proof.
  intros I. destruct (ci_v _ _ _ I) as (v & ts & Iv & Dv).
  assert (Wm := merged_wblock N e b (t_sizes t) w HN (ci_wb _ _ _ I)).
  assert (Tm : transferable me (set_bdirty (merged N b) false)).
  { unfold merged. match goal with |- transferable _ (set_bdirty (set_checksums (set_bdirty _ ?d) ?c) false) => change (transferable me (set_checksums (set_bdirty (b 0%nat) false) c)) end.
    eapply send_cks; [apply I|apply (ci_wb _ _ _ I 0%nat HN)|]. change (wblock (e 0%nat) (set_bdirty (merged N b) false) (t_sizes t) w). apply wb_dirty. exact Wm. }
  assert (M1 : b_base (merged N b) = base) by (apply (ci_base _ _ _ I 0%nat HN)).
  assert (M2 : b_dtype (merged N b) = dt) by (apply (ci_dt _ _ _ I 0%nat HN)).
  assert (M3 : b_nmemb (merged N b) = nmemb) by (apply (ci_nm _ _ _ I 0%nat HN)).
  assert (M4 : as_dirty (b_attrset (merged N b)) = false) by (apply (ci_clean _ _ _ I)).
  destruct (b_dirty (merged N b)) eqn:Dm.
  - destruct (hinv_other _ _ _ _ _ _ _ _ (merged N b) Iv M1 M2 M3 Wm Dm M4) as (ts' & Im).
    destruct (hist_flush (e 0%nat) base dt nmemb w (resum (resum t ts) ts') f (merged N b) Im) as (f1 & E & I1 & _ & _).
    destruct (flush_table (e 0%nat) f (merged N b) (t_sizes t)) as (f1' & E' & _ & _ & O); [apply Wm|rewrite M1; apply Im|exact Dm|exact M4|].
    rewrite E in E'. injection E' as <-. rewrite M1 in O.
    exists f1, ts'. split; [exact E|]. split; [exists (set_bdirty (merged N b) false); split; [exact I1|reflexivity]|].
    split; [|split; [exact Tm|split; [intros _; exact I1|split]]].
    + destruct (ci_bare _ _ _ I) as [B1 B2]. split; rewrite ?O; auto; intros X; symmetry in X; revert X; first [apply header_not_attr1|apply header_not_attr2].
    + intros i c. unfold data_file. rewrite O; [tauto|]. apply data_not_header. lia.
    + intros X. rewrite merged_dirty in Dm. apply exists_dirty in Dm. destruct Dm as (i & Hi & Di). rewrite X in Di by exact Hi. discriminate Di.
  - rewrite (set_bdirty_same _ Dm). exists f, ts. split; [apply flush_clean; auto|]. rewrite (set_bdirty_same _ Dm) in Tm.
    assert (Dv' : b_dirty v = false). { destruct (b_dirty v) eqn:X; [|reflexivity]. specialize (Dv eq_refl). apply exists_dirty in Dv. rewrite merged_dirty in Dm. congruence. }
    split; [exists v; auto|]. split; [apply I|]. split; [exact Tm|]. split; [|split; [tauto|reflexivity]].
    intros X. apply exists_dirty in X. rewrite merged_dirty in Dm. congruence.
Qed.

Lemma cflush t f b k : cinv t f b -> leads N [] (fun i => mpi_flush (junk k i) (e i) (world N) i (nbase k i) (b i)) f (fun res g =>
  (forall i, (i < N)%nat -> fst (res i) = 0) /\ cinv t g (fun i => snd (res i)) /\
  (exists v ts, hinv (e 0%nat) base dt nmemb w (resum t ts) g v /\ b_dirty v = false /\
     ((exists i, (i < N)%nat /\ b_dirty (b i) = true) -> v = set_bdirty (merged N b) false)) /\
  (forall i c, data_file g base i = Some c <-> data_file f base i = Some c) /\
  (forall i, (i < N)%nat -> handed (set_bdirty (merged N b) false) i (snd (res i))) /\
  ((forall i, (i < N)%nat -> b_dirty (b i) = false) -> g = f)).
Proof.
  intros I. destruct (flush_ready t f b I) as (f1 & ts & E & (v & Iv & Dv) & B & T & Hd & Hdf & Hcl).
  assert (HL := wb_layout _ _ _ _ (ci_wb _ _ _ I 0%nat HN)).
  eapply leads_mono; [|apply (lead_flush N me (junk k) e (nbase k) HN Hme b f 0 f1 (set_bdirty (merged N b) false)); [|rewrite (hl_Nfile _ _ HL); unfold zlen; lia|exact E|intros _; exact T]].
  - intros res g (-> & R). assert (HH : forall i, (i < N)%nat -> handed (set_bdirty (merged N b) false) i (snd (res i))) by (intros i Hi; apply (R i Hi); reflexivity).
    split; [intros i Hi; apply (R i Hi)|]. split; [|split; [|split; [exact Hdf|split; [exact HH|exact Hcl]]]].
    + apply (cinv_handed t ts f1 v (set_bdirty (merged N b) false)); auto.
      * rewrite Dv. discriminate.
      * apply (ci_base _ _ _ I 0%nat HN).
      * apply (ci_dt _ _ _ I 0%nat HN).
      * apply (ci_nm _ _ _ I 0%nat HN).
      * apply wb_dirty. apply merged_wblock; [exact HN|apply I].
      * apply (ci_clean _ _ _ I).
    + destruct (existsb (fun i => b_dirty (b i)) (seq 0 N)) eqn:X.
      * apply exists_dirty in X. exists (set_bdirty (merged N b) false), ts. auto.
      * exists v, ts. split; [exact Iv|]. split; [exact Dv|]. intros Y. apply exists_dirty in Y. congruence.
  - intros i Hi. pose proof (wb_layout _ _ _ _ (ci_wb _ _ _ I i Hi)) as HLi. rewrite (hl_Nfile _ _ HL), (hl_Nfile _ _ HLi). split; [reflexivity|]. unfold zlen. rewrite (hl_cks _ _ HLi). lia.
Qed.

(* The header after a flush. *)
Definition saved (t : table) (g : fs) (v : block) : Prop :=
  (exists ts, hinv (e 0%nat) base dt nmemb w (resum t ts) g v) /\ b_dirty v = false /\ sums_ok g base (t_sizes t) (b_fchecksum v).
Lemma flushed t f g b : cinv t f b -> tracked t f b ->
  (exists v ts, hinv (e 0%nat) base dt nmemb w (resum t ts) g v /\ b_dirty v = false /\
     ((exists i, (i < N)%nat /\ b_dirty (b i) = true) -> v = set_bdirty (merged N b) false)) ->
  (forall i c, data_file g base i = Some c <-> data_file f base i = Some c) ->
  ((forall i, (i < N)%nat -> b_dirty (b i) = false) -> g = f) ->
  exists v, saved t g v /\ forall j, (j < length (t_sizes t))%nat -> nth j (b_fchecksum v) 0 = nth j (b_fchecksum (merged N b)) 0.
Proof.
  intros I [T1 T2] (v & ts & Iv & Dv & Hv) Hdf Hcl.
  assert (S : sums_ok g base (t_sizes t) (b_fchecksum (merged N b))) by (intros i c Hi Hc; apply Hdf in Hc; apply T1; auto).
  destruct (existsb (fun i => b_dirty (b i)) (seq 0 N)) eqn:X.
  - apply exists_dirty in X. specialize (Hv X). subst v. exists (set_bdirty (merged N b) false). split; [|reflexivity]. split; [exists ts; exact Iv|]. split; [reflexivity|exact S].
  - assert (C : forall i, (i < N)%nat -> b_dirty (b i) = false).
    { intros i Hi. destruct (b_dirty (b i)) eqn:Y; [|reflexivity]. rewrite (proj2 (exists_dirty b)) in X by (exists i; auto). discriminate X. }
    specialize (Hcl C). subst g. destruct (T2 C) as (v' & ts' & Iv' & Dv' & Hn). exists v'. split; [|exact Hn]. split; [exists ts'; exact Iv'|]. split; [exact Dv'|]. eapply sums_by; [exact Hn|exact T1].
Qed.
(* One rank has a handle with the checksums of the header. *)
Lemma tracked_saved t g v b1 b : N = 1%nat -> saved t g v -> cinv t g b -> (forall i, (i < N)%nat -> handed b1 i (b i)) ->
  (forall j, (j < length (t_sizes t))%nat -> nth j (b_fchecksum b1) 0 = nth j (b_fchecksum v) 0) -> tracked t g b.
Proof.
  intros E1 ((ts & Iv) & Dv & S) I HH Hn. assert (E0 : b 0%nat = b1) by (apply (proj2 (HH 0%nat HN)); reflexivity).
  assert (Hm : forall j, (j < length (t_sizes t))%nat -> nth j (b_fchecksum (merged N b)) 0 = nth j (b_fchecksum v) 0).
  { intros j Hj. rewrite (merged_alone b (t_sizes t) j E1 (ci_wb _ _ _ I 0%nat HN) Hj), E0. apply Hn. exact Hj. }
  split; [eapply sums_by; [exact Hm|exact S]|]. intros _. exists v, ts. split; [exact Iv|]. split; [exact Dv|]. intros j Hj. symmetry. apply Hm. exact Hj.
Qed.

Lemma step_flush t f b k : cinv t f b -> leads N [] (fun i => cstep N thr junk nbase e k i (b i) CFlush) f (fun res g => step_to t CFlush f b res g /\
  (forall i, (i < N)%nat -> fst (res i) = (0, None)) /\ cinv t g (fun i => snd (res i)) /\
  (exists v ts, hinv (e 0%nat) base dt nmemb w (resum t ts) g v /\ b_dirty v = false) /\ (tracked t f b -> exists v, saved t g v)).
Proof.
  intros I. cbn [cstep]. eapply leads_bind; [apply (cflush t f b k I)|]. cbv beta. intros res g (R & I' & Hv & Hdf & HH & Hcl).
  apply leads_ext with (fun i => mret ((0, None), snd (res i))); [intros i Hi; rewrite <- (R i Hi); destruct (res i); reflexivity|].
  apply leads_ret. split; [|split; [reflexivity|split; [exact I'|split; [destruct Hv as (v & ts & Iv & Dv & _); exists v, ts; auto|]]]].
  2:{ intros HT. destruct (flushed t f g b I HT Hv Hdf Hcl) as (v & Sv & _). exists v. exact Sv. }
  exists t. split; [constructor; reflexivity|]. split; [exact I'|]. split; [reflexivity|]. intros [E1|[]] _ HT.
  destruct (flushed t f g b I HT Hv Hdf Hcl) as (v & Sv & Hn). apply (tracked_saved t g v (set_bdirty (merged N b) false)); auto. intros j Hj. symmetry. apply Hn. exact Hj.
Qed.

(* Opening a block whose header is up to date. *)
Lemma open_ready t ts f v e0 : e_me e0 = me -> hinv (e 0%nat) base dt nmemb w (resum t ts) f v -> b_dirty v = false -> bare f ->
  exists b2, big_block_open e0 f base = Ret (Some b2) /\ hinv e0 base dt nmemb w (resum t ts) f b2 /\ transferable me b2 /\ b_dirty b2 = false /\
    (forall i, (i < length (t_sizes t))%nat -> nth i (b_fchecksum b2) 0 = nth i (b_fchecksum v) 0).
Proof.
  intros Em I D B. destruct (open_attrs_none e0 f base (proj1 B) (proj2 B)) as (s & Ea & As & Ad).
  assert (Es : s = set_dirty (attrset_create (e_malloc e0)) false).
  { unfold open_attrs, file_contents, fopen_r in Ea. destruct B as [B1 B2]. rewrite B1 in Ea. destruct B2 as [B2|B2]; rewrite B2 in Ea; injection Ea as <-; reflexivity. }
  assert (I0 : hinv e0 base dt nmemb w (resum t ts) f v).
  { destruct I. constructor; auto; [|exists s; auto]. eapply me_wblock; [|exact hv_wb]. rewrite Hme by exact HN. auto. }
  pose proof (wb_layout _ _ _ _ (hv_wb _ _ _ _ _ _ _ _ I0)) as HL. cbn [resum t_sizes] in HL.
  pose proof (hv_base _ _ _ _ _ _ _ _ I0) as Eb. pose proof (hv_dt _ _ _ _ _ _ _ _ I0) as Ed. pose proof (hv_nm _ _ _ _ _ _ _ _ I0) as En.
  pose proof (hv_hdr _ _ _ _ _ _ _ _ I0 D) as Hh. cbn [resum t_sizes] in Hh.
  assert (EO : big_block_open e0 f base = Ret (Some (block_of_header base s (read_back v (t_sizes t))))).
  { rewrite (open_by_header e0 f base s _ Hbn Ea Hh). rewrite (parse_table v (t_sizes t) HL); [reflexivity|rewrite Ed; exact Hty|rewrite En; lia|apply (hv_N _ _ _ _ _ _ _ _ I0)]. }
  destruct (read_back_block base s v (t_sizes t) HL (eq_sym Eb)) as (S1 & S2 & S3 & S4).
  set (b2 := block_of_header base s (read_back v (t_sizes t))) in *.
  destruct (hist_reopen e0 base dt nmemb w Hbn Hty ltac:(lia) (resum t ts) f v I0) as (f' & b' & E & I' & _).
  assert (Ec : f' = f /\ b' = b2).
  { cbn [hstep] in E. unfold big_block_close in E. rewrite (flush_clean e0 f v D (hv_clean _ _ _ _ _ _ _ _ I0)) in E. cbn [bind] in E. rewrite Eb, EO in E. cbn [bind] in E. injection E as <- <-. auto. }
  destruct Ec as [-> ->]. exists b2. split; [exact EO|]. split; [exact I'|]. split; [|split; [exact S4|]].
  - split.
    + pose proof (wb_layout _ _ _ _ (hv_wb _ _ _ _ _ _ _ _ I')) as HL2. cbn [resum t_sizes] in HL2. destruct HL2.
      destruct Hty as (_ & T2 & T3). destruct Hbn as (_ & Bn & _). unfold zlen in *. pose proof (zsum_nonneg _ hl_nonneg).
      constructor.
      * rewrite (hv_dt _ _ _ _ _ _ _ _ I'). split; [|lia]. intros X. rewrite Forall_forall in T3. apply T3 in X. destruct X. contradiction.
      * rewrite (hv_nm _ _ _ _ _ _ _ _ I'). lia.
      * rewrite (hv_base _ _ _ _ _ _ _ _ I'). auto.
      * rewrite hl_size. lia.
      * rewrite hl_Nfile. unfold zlen. lia.
      * rewrite hl_fsize, hl_Nfile. split; [right; unfold zlen; rewrite app_length; cbn [length]; lia|]. apply Forall_app. split; [|repeat constructor; lia].
        apply Forall_forall. intros x Hx. pose proof (in_le_zsum _ _ hl_nonneg Hx). rewrite Forall_forall in hl_nonneg. specialize (hl_nonneg _ Hx). lia.
      * rewrite hl_foffset, hl_Nfile. split; [right; unfold zlen; rewrite map_length, seq_length; lia|]. apply Forall_forall. intros x Hx. apply in_map_iff in Hx. destruct Hx as (k & <- & Hk). apply in_seq in Hk.
        pose proof (first_row_nonneg _ k hl_nonneg). pose proof (first_row_le _ k hl_nonneg). lia.
      * rewrite hl_Nfile. split; [right; unfold zlen; rewrite hl_cks; lia|exact hl_cksr].
    + exists (e_realloc e0), (e_malloc e0), [], (attrset_create (e_malloc e0)), false, []. split; [constructor|]. split; [constructor|]. split; [discriminate|]. split; [reflexivity|]. rewrite S3. exact Es.
  - intros i Hi. rewrite (hv_sum _ _ _ _ _ _ _ _ I') by exact Hi. symmetry. apply (hv_sum _ _ _ _ _ _ _ _ I0). exact Hi.
Qed.

(* All ranks open the block. *)
Lemma copen t ts f v k : hinv (e 0%nat) base dt nmemb w (resum t ts) f v -> b_dirty v = false -> bare f ->
  leads N [] (fun i => mpi_open (junk k i) (e i) (world N) i (nbase k i) base) f (fun res g => g = f /\
    (forall i, (i < N)%nat -> fst (res i) = 0) /\ cinv t f (fun i => snd (res i)) /\
    exists b2, big_block_open (e 0%nat) f base = Ret (Some b2) /\ forall i, (i < N)%nat -> handed b2 i (snd (res i))).
Proof.
  intros I D B. destruct (open_ready t ts f v (e 0%nat) (Hme 0%nat HN) I D B) as (b2 & E & I2 & T & D2 & Hs).
  eapply leads_mono; [|apply (lead_open N me (junk k) e (nbase k) HN Hme base f (Some b2) E); intros b [= <-]; exact T].
  intros res g (-> & R). split; [reflexivity|].
  assert (HH : forall i, (i < N)%nat -> fst (res i) = 0 /\ handed b2 i (snd (res i))) by (intros i Hi; destruct (R i Hi) as (b' & -> & H); auto).
  split; [intros i Hi; apply (HH i Hi)|]. split; [|exists b2; split; [exact E|intros i Hi; apply (HH i Hi)]].
  apply (cinv_handed t ts f b2 b2); auto; try apply I2; [rewrite D2; discriminate|]. intros i Hi. apply (HH i Hi).
Qed.

Lemma step_reopen t f b k : cinv t f b -> leads N [] (fun i => cstep N thr junk nbase e k i (b i) CReopen) f (step_to t CReopen f b).
Proof.
  intros I. cbn [cstep]. unfold mpi_close.
  change (leads N [] (fun i => mbind (mpi_flush (junk k i) (e i) (world N) i (nbase k i) (b i)) (fun rb => mbind (let '(rt, _) := rb in mret rt) (fun rc =>
    mbind (mpi_open (junk (S k) i) (e i) (world N) i (nbase (S k) i) (b_base (b i))) (fun '(rc2, b') => if negb (rc2 =? 0) then mret ((-1, None), b i) else mret ((rc, None), b'))))) f (step_to t CReopen f b)).
  eapply leads_bind; [apply (cflush t f b k I)|]. cbv beta. intros res g (R & I' & Hv & Hdf & HH & Hcl).
  pose proof Hv as (v & ts & Iv & Dv & _).
  apply leads_ext with (fun i => mbind (mpi_open (junk (S k) i) (e i) (world N) i (nbase (S k) i) base) (fun '(rc2, b') => if negb (rc2 =? 0) then mret ((-1, None), b i) else mret ((0, None), b'))).
  { intros i Hi. rewrite <- (R i Hi), (ci_base _ _ _ I i Hi). destruct (res i). reflexivity. }
  eapply leads_bind; [apply (copen t ts g v (S k) Iv Dv (ci_bare _ _ _ I'))|]. cbv beta. intros res2 g2 (-> & R2 & I2 & b2 & E2 & H2).
  apply leads_ext with (fun i => mret ((0, None), snd (res2 i))); [intros i Hi; specialize (R2 i Hi); destruct (res2 i); cbn [fst] in R2; subst; reflexivity|].
  apply leads_ret. exists t. split; [constructor; reflexivity|]. split; [exact I2|]. split; [reflexivity|]. intros [E1|[]] _ HT.
  destruct (flushed t f g b I HT Hv Hdf Hcl) as (v' & Sv & _). pose proof Sv as ((ts' & Iv') & Dv' & _).
  destruct (open_ready t ts' g v' (e 0%nat) (Hme 0%nat HN) Iv' Dv' (ci_bare _ _ _ I')) as (b3 & E3 & _ & _ & _ & Hn). rewrite E2 in E3. injection E3 as <-.
  apply (tracked_saved t g v' b2); auto.
Qed.

Lemma bare_frame f g : bare f -> (forall p, (forall i, 0 <= i -> p <> data_path base i) -> fs_get g p = fs_get f p) -> bare g.
Proof.
  intros [B1 B2] H. split; rewrite ?H; auto; intros i Hi X; symmetry in X; revert X; first [apply data_not_attr1|apply data_not_attr2]; exact Hi.
Qed.

Lemma step_grow t f b k gs : cinv t f b -> cop_ok N me dt nmemb thr (t_sizes t) (CGrow gs) ->
  leads N [] (fun i => cstep N thr junk nbase e k i (b i) (CGrow gs)) f (fun res g => step_to t (CGrow gs) f b res g /\
    exists b1, (forall i, (i < N)%nat -> handed b1 i (snd (res i))) /\
      b_fchecksum b1 = firstn (length (t_sizes t)) (b_fchecksum (b 0%nat)) ++ repeat 0 (S (length gs)) /\
      (forall i c, (i < length (t_sizes t))%nat -> data_file g base i = Some c -> data_file f base i = Some c) /\
      (forall i, (length (t_sizes t) <= i < length (t_sizes t) + length gs)%nat -> data_file g base i = Some [])).
Proof.
  intros I (Hlo & Hn24). pose proof (ci_wb _ _ _ I 0%nat HN) as W0. pose proof (wb_layout _ _ _ _ W0) as HL. pose proof (ci_base _ _ _ I 0%nat HN) as Eb.
  destruct (ci_v _ _ _ I) as (v & ts & Iv & Dv).
  destruct (grow_spec f (b 0%nat) (t_sizes t) gs HL) as (f1 & b1 & E & L1 & E1 & E2 & E3 & E4 & E5 & E6 & Hd' & G & O); [rewrite Eb; apply Iv|exact Hlo|].
  rewrite Eb in *.
  destruct (hinv_other _ _ _ _ _ _ _ _ (set_bdirty (b 0%nat) true) Iv Eb (ci_dt _ _ _ I 0%nat HN) (ci_nm _ _ _ I 0%nat HN) (wb_dirty _ _ _ _ true W0) eq_refl (ci_clean _ _ _ I)) as (ts' & Id).
  destruct (hist_grow (e 0%nat) base dt nmemb w (resum (resum t ts) ts') f _ gs Id (conj Hlo Hn24)) as (x & f1' & b1' & t' & Eh & Sp & I1 & _).
  assert (X : f1' = f1 /\ b1' = b1).
  { cbn [hstep] in Eh. change (big_block_grow f (set_bdirty (b 0%nat) true) (zlen gs) gs) with (big_block_grow f (b 0%nat) (zlen gs) gs) in Eh. rewrite E in Eh. cbn [bind] in Eh. injection Eh as _ <- <-. auto. }
  destruct X as [-> ->]. inversion Sp; subst. cbn [resum t_sizes t_row t_sum] in I1.
  set (t' := mkTab (t_sizes t ++ gs) (t_row t) (t_sum t)). change (hinv (e 0%nat) base dt nmemb w (resum t' ts') f1 b1) in I1.
  pose proof Hlo as (Lo1 & Lo2 & Lo3).
  assert (GF : grow_fits (b 0%nat) (zlen gs) gs).
  { split; [rewrite (hl_fsize _ _ HL); destruct (t_sizes t); discriminate|]. split; [intros X; pose proof (hl_cks _ _ HL) as Y; rewrite X in Y; discriminate Y|].
    rewrite (hl_Nfile _ _ HL). rewrite zlen_app in Lo3. split; [apply zlen_nonneg|]. split; [lia|].
    apply Forall_forall. intros z Hz. assert (Hz' : In z (t_sizes t ++ gs)) by (apply in_or_app; right; exact Hz). pose proof (in_le_zsum _ _ Lo1 Hz'). rewrite Forall_forall in Lo1. specialize (Lo1 _ Hz'). lia. }
  assert (T1 : transferable me b1).
  { pose proof E as E'. unfold big_block_grow in E'. destruct (grow_internal (b 0%nat) (zlen gs) gs) as [bb| |] eqn:EG; try discriminate E'. cbn [bind] in E'.
    destruct (truncate_files _ _ _ _) as [rc ff]. injection E' as _ _ ->. eapply (grown_sendable N me (junk k) e (nbase k) HN Hme); [exact (ci_send _ _ _ I)|exact GF|exact EG]. }
  cbn [cstep].
  eapply leads_bind; [apply (lead_grow N me (junk k) e (nbase k) HN Hme b (zlen gs) gs f 0 f1 b1 (ci_send _ _ _ I) GF)|].
  { intros i Hi. rewrite (hl_Nfile _ _ HL), (hl_Nfile _ _ (wb_layout _ _ _ _ (ci_wb _ _ _ I i Hi))). reflexivity. }
  { exact E. }
  intros res g (Eg & R). specialize (Eg eq_refl).
  assert (HH : forall i, (i < N)%nat -> fst (res i) = 0 /\ handed b1 i (snd (res i))) by (intros i Hi; destruct (R i Hi) as (b' & -> & H); auto).
  apply leads_ext with (fun i => mret ((0, None), snd (res i))); [intros i Hi; rewrite <- (proj1 (HH i Hi)); destruct (res i); reflexivity|].
  assert (Old : forall i c, (i < length (t_sizes t))%nat -> data_file g base i = Some c -> data_file f base i = Some c).
  { intros i c Hi Hc. unfold data_file in *. rewrite <- Eg, O in Hc; [exact Hc|]. intros (j & Hj & X). rewrite zlen_app in Lo3. apply data_path_inj in X; unfold zlen in *; lia. }
  apply leads_ret. cbn [fst snd]. split.
  - assert (R0 : snd (res 0%nat) = b1) by (apply (proj2 (proj2 (HH 0%nat HN))); reflexivity).
    assert (Ig : cinv t' g (fun i => snd (res i))).
    2:{ exists t'. split; [constructor; reflexivity|]. split; [exact Ig|]. split; [reflexivity|]. intros [X1|[]] _ [HT _]. change (tracked t' g (fun i => snd (res i))). split.
      - change (t_sizes t') with (t_sizes t ++ gs). intros i c Hi Hc. rewrite (merged_alone _ (t_sizes t ++ gs) i X1 (ci_wb _ _ _ Ig 0%nat HN) Hi). cbn [snd]. rewrite R0, E6.
        destruct (Nat.lt_ge_cases i (length (t_sizes t))) as [Lt|Ge].
        + rewrite app_nth1 by (rewrite firstn_length, (hl_cks _ _ HL); lia). rewrite nth_first by exact Lt. rewrite <- (merged_alone b (t_sizes t) i X1 W0 Lt). apply HT; [exact Lt|]. apply Old; auto.
        + unfold data_file in Hc. rewrite <- Eg in Hc. fold (data_file f1 base i) in Hc. rewrite G in Hc by (rewrite app_length in Hi; lia). injection Hc as <-.
          rewrite app_nth2 by (rewrite firstn_length, (hl_cks _ _ HL); lia). rewrite nth_repeat0_z. reflexivity.
      - intros X. specialize (X 0%nat HN). cbn [snd] in X. rewrite R0, E5 in X. discriminate X. }
    apply (cinv_handed t' ts' g b1 b1); auto; try apply I1.
    + eapply hinv_same; [|exact I1]. split; [symmetry; apply Eg|intros p _; symmetry; apply Eg].
    + intros _. exists 0%nat. split; [exact HN|]. cbn [snd]. rewrite R0. exact E5.
    + apply (bare_frame f1); [|intros p _; symmetry; apply Eg]. apply (bare_frame f); [apply I|]. intros p Hp. apply O. intros (j & Hj & ->). apply (Hp j); [pose proof (zlen_nonneg (t_sizes t)); lia|reflexivity].
    + intros i Hi. apply (HH i Hi).
  - exists b1. split; [intros i Hi; apply (HH i Hi)|]. split; [exact E6|]. split.
    + exact Old.
    + intros i Hi. unfold data_file in *. rewrite <- Eg. apply G. exact Hi.
Qed.

Lemma concat_widths k (es es' : list bytes) : Forall (fun v => length v = k) es -> Forall (fun v => length v = k) es' -> length es = length es' -> concat es = concat es' -> es = es'.
Proof.
  intros H. revert es'. induction H as [|v es Hv Hes IH]; intros [|v' es'] H' Hl E; try discriminate Hl; auto.
  inversion H'; subst. cbn [concat] in E. apply app_inj_len in E; [|congruence]. destruct E as [-> E]. f_equal. apply IH; auto.
Qed.
Lemma converts_fun sd dd (vs outs outs' : list bytes) : Forall2 (converts me sd dd) vs outs -> Forall2 (converts me sd dd) vs outs' -> outs = outs'.
Proof. intros H. revert outs'. induction H; intros outs' F'; inversion F'; subst; auto. f_equal; auto. unfold converts in *. congruence. Qed.
Lemma before_S n i : before n (S i) = before n i + n i.
Proof. unfold before. rewrite seq_S, map_app, zsum_app. cbn [map Nat.add]. rewrite zsum_cons. change (zsum []) with 0. lia. Qed.
Lemma before_mono n m : (forall i, (i < m)%nat -> 0 <= n i) -> forall i, (i <= m)%nat -> 0 <= before n i <= before n m.
Proof.
  induction m as [|m IH]; intros H i Hi; [replace i with 0%nat by lia; unfold before; cbn; lia|].
  assert (Hp : forall j, (j < m)%nat -> 0 <= n j) by (intros j Hj; apply H; lia). pose proof (IH Hp m (Nat.le_refl _)). pose proof (H m ltac:(lia)).
  destruct (Nat.eq_dec i (S m)) as [->|Hne]; rewrite !before_S; [lia|]. pose proof (IH Hp i ltac:(lia)). lia.
Qed.
(* Every row belongs to a rank. *)
Lemma owner n m x : (forall i, (i < m)%nat -> 0 <= n i) -> 0 <= x < before n m -> exists i, (i < m)%nat /\ before n i <= x < before n i + n i.
Proof.
  induction m as [|m IH]; intros H Hx; [unfold before in Hx; cbn in Hx; lia|]. rewrite before_S in Hx.
  destruct (Z_lt_dec x (before n m)) as [L|L]; [|exists m; lia].
  destruct IH as (i & Hi & Hb); [intros; apply H; lia|lia|]. exists i. split; [lia|exact Hb].
Qed.
Lemma all_or {A} (P : Prop) (Q : nat -> A -> Prop) (d : A) m : (forall i, (i < m)%nat -> P \/ exists x, Q i x) -> P \/ exists F, forall i, (i < m)%nat -> Q i (F i).
Proof.
  induction m as [|m IH]; intros H; [right; exists (fun _ => d); intros i Hi; lia|].
  destruct IH as [L|(F & HF)]; [intros i Hi; apply H; lia|left; exact L|]. destruct (H m ltac:(lia)) as [L|(x & Hx)]; [left; exact L|].
  right. exists (fun i => if (i =? m)%nat then x else F i). intros i Hi. destruct (Nat.eqb_spec i m) as [->|Hne]; [exact Hx|apply HF; lia].
Qed.

(* Writing. *)
Definition at_row (b : block) (o : Z) : bptr := match big_block_seek b (mkPtr 0 0 0) o with Ret (_, p) => p | _ => mkPtr 0 0 0 end.
Lemma like_fields b b' : like b b' -> b_base b' = b_base b /\ b_dtype b' = b_dtype b /\ b_nmemb b' = b_nmemb b /\ b_attrset b' = b_attrset b /\ b_Nfile b' = b_Nfile b /\
  (b_dirty b = true -> b_dirty b' = true) /\ (b_dirty b' = false -> b_fchecksum b' = b_fchecksum b).
Proof.
  intros (cks & d & -> & H). repeat (split; [reflexivity|]). split; [intros D; apply H; left; exact D|].
  cbn [set_checksums set_bdirty b_fchecksum b_dirty]. intros D. destruct (list_eq_dec Z.eq_dec cks (b_fchecksum b)) as [E|E]; [exact E|]. rewrite H in D by (right; exact E). discriminate D.
Qed.
Lemma coll_at t f b o n : cinv t f b -> 0 <= o -> o <= zsum (t_sizes t) -> (forall i, (i < N)%nat -> 0 <= n i) -> o + total N n < 2 ^ 63 ->
  (forall i, (i < N)%nat -> big_block_seek (b i) (mkPtr 0 0 0) o = Ret (0, at_row (b i) o)) /\
  coll_ok N me e b (fun i => at_row (b i) o) (t_sizes t) w base dt nmemb o n.
Proof.
  intros I Ho Hs Hn Ht.
  assert (HP : forall i, (i < N)%nat -> big_block_seek (b i) (mkPtr 0 0 0) o = Ret (0, at_row (b i) o) /\ ptr_at (t_sizes t) (at_row (b i) o) o).
  { intros i Hi. pose proof (wb_layout _ _ _ _ (ci_wb _ _ _ I i Hi)) as HL. pose proof (hl_small _ _ HL).
    destruct (seek_spec (b i) (t_sizes t) (mkPtr 0 0 0) o HL ltac:(lia)) as (H1 & _ & _). destruct (H1 ltac:(lia)) as (q & E & P). unfold at_row. rewrite E. auto. }
  split; [intros i Hi; apply (HP i Hi)|]. constructor; try apply I; auto. intros i Hi. apply (HP i Hi).
Qed.
Lemma holds_widths um addr isz vs : holds um addr isz 0 vs -> Forall (fun v => length v = Z.to_nat isz) vs.
Proof. intros H. apply Forall_forall. intros v Hv. apply In_nth_error in Hv. destruct Hv as [j Hj]. apply H in Hj. apply load_length in Hj. exact Hj. Qed.
Lemma flat_zlen {A} (F : nat -> list A) n m : (forall i, (i < m)%nat -> zlen (F i) = n i) -> zlen (flat_map F (seq 0 m)) = zsum (map n (seq 0 m)).
Proof.
  induction m as [|m IH]; intros H; [reflexivity|]. rewrite seq_S, flat_map_app, map_app, zlen_app, zsum_app, IH by (intros i Hi; apply H; lia). cbn [flat_map map Nat.add]. rewrite app_nil_r, H, zsum_cons by lia. change (zsum []) with 0. lia.
Qed.

Lemma step_write t f b k o conc a um : cinv t f b -> cop_ok N me dt nmemb thr (t_sizes t) (CWrite o conc a um) ->
  leads N [] (fun i => cstep N thr junk nbase e k i (b i) (CWrite o conc a um)) f (step_to t (CWrite o conc a um) f b).
Proof.
  intros I (Ho & Hin & Hsm & (vs & outs & HS & HR) & Hc). set (n := rank_rows a) in *.
  pose proof (ci_wb _ _ _ I 0%nat HN) as W0. pose proof (wb_layout _ _ _ _ W0) as HL. pose proof (hl_small _ _ HL) as Hsl. pose proof (wb_wpos _ _ _ _ W0) as Hwp.
  assert (Ht : 0 <= total N n).
  { unfold total. apply zsum_nonneg. apply Forall_forall. intros x Hx. apply in_map_iff in Hx. destruct Hx as (i & <- & Hi). apply in_seq in Hi. apply Hc. lia. }
  destruct (coll_at t f b o n I Ho ltac:(lia) (fun i Hi => proj1 (Hc i Hi)) ltac:(lia)) as (Hseek & HC).
  destruct (ci_v _ _ _ I) as (v & ts & Iv & Dv).
  set (rows := flat_map (fun i => rows_of nmemb (n i) (outs i)) (seq 0 N)).
  assert (Wo : forall i, (i < N)%nat -> zlen (outs i) = n i * nmemb /\ Forall (fun v => length v = Z.to_nat (itemsize me dt)) (outs i)).
  { intros i Hi. destruct (HS i Hi) as (L1 & Hh & F2). split; [unfold zlen in *; rewrite <- (Forall2_length F2); exact L1|].
    eapply (converts_Forall me (a_dtype (a i)) dt (vs i)); [apply (tp_dt _ _ _ _ (sc_part _ _ _ _ _ _ (HR i Hi)))| |eapply holds_widths; exact Hh|exact F2].
    pose proof (wb_dt _ _ _ _ W0) as D. rewrite (Hme 0%nat HN), (ci_dt _ _ _ I 0%nat HN) in D. exact D. }
  assert (Lr : zlen rows = total N n).
  { apply flat_zlen. intros i Hi. unfold zlen. rewrite rows_of_length. pose proof (proj1 (Hc i Hi)). lia. }
  assert (Wr : Forall (fun u => length u = Z.to_nat w) rows).
  { apply Forall_forall. intros u Hu. apply in_flat_map in Hu. destruct Hu as (i & Hi & Hu). apply in_seq in Hi. destruct (Wo i ltac:(lia)) as [L1 F1].
    pose proof (proj1 (Hc i ltac:(lia))) as Hn0. pose proof (wb_dt _ _ _ _ W0) as [_ D]. rewrite (Hme 0%nat HN), (ci_dt _ _ _ I 0%nat HN) in D.
    pose proof (rows_of_widths nmemb (n i) (itemsize me dt) (outs i) Hn0 ltac:(lia) ltac:(lia) L1 F1) as X. rewrite Forall_forall in X. rewrite Hw. apply X. exact Hu. }
  assert (Ex : rows_exist f base (t_sizes t) o (o + total N n)).
  { intros r i q _ Hh. apply home_lt in Hh. apply (hv_files _ _ _ _ _ _ _ _ Iv). apply Hh. }
  cbn [cstep].
  apply leads_ext with (fun i => mbind (mpi_write thr (e i) (world N) i (b i) (at_row (b i) o) (a i) (um i) conc) (fun '(rc, b', _, um') => mret ((rc, Some um'), b'))).
  { intros i Hi. rewrite (Hseek i Hi). reflexivity. }
  eapply leads_bind; [apply (lead_write N me e b (fun i => at_row (b i) o) (t_sizes t) w base dt nmemb o n HN HC a um thr conc Hsm vs outs f HR); intros i Hi _; apply (HS i Hi)|].
  intros res g (Sp & rc & b' & p' & um' & _ & Erc & HB & Hdone). fold rows in Hdone.
  assert (R0 : rc = 0) by (apply Erc; split; [exact Hin|exact Ex]).
  destruct (Hdone R0 (fun i Hi => proj2 (Hc i Hi))) as (Eg & Hsrc & Hrec). clear Hdone Erc.
  apply leads_ext with (fun i => mret ((0, Some (um' i)), b' i)).
  { intros i Hi. destruct (HB i Hi) as (-> & _). rewrite R0. reflexivity. }
  apply leads_ret.
  assert (HK : forall i, (i < N)%nat -> like (b i) (b' i)) by (intros i Hi; apply (HB i Hi)).
  assert (Iv' : hinv (e 0%nat) base dt nmemb w (resum (with_rows t o rows) ts) g v).
  { apply (hinv_rows _ _ _ _ _ (resum t ts) f g v o rows); auto. rewrite Lr. exact Hin. }
  assert (I' : cinv (with_rows t o rows) g b').
  { constructor.
    - intros i Hi. rewrite (proj1 (like_fields _ _ (HK i Hi))). apply I. exact Hi.
    - intros i Hi. destruct (like_fields _ _ (HK i Hi)) as (_ & -> & _). apply I. exact Hi.
    - intros i Hi. destruct (like_fields _ _ (HK i Hi)) as (_ & _ & -> & _). apply I. exact Hi.
    - intros i Hi. apply (HB i Hi).
    - exists v, ts. split; [exact Iv'|]. intros D. destruct (Dv D) as (i & Hi & Di). exists i. split; [exact Hi|]. destruct (like_fields _ _ (HK i Hi)) as (_ & _ & _ & _ & _ & X & _). apply X. exact Di.
    - eapply like_handle; [apply (HK 0%nat HN)|apply (HB 0%nat HN)|exact W0|apply I].
    - destruct (like_fields _ _ (HK 0%nat HN)) as (_ & _ & _ & -> & _). apply I.
    - apply (bare_frame f); [apply I|]. intros q Hq. apply (proj1 Sp). intros i Hi. apply Hq. lia. }
  exists (with_rows t o rows). split; [|split; [exact I'|split; [reflexivity|]]].
  - unfold rows. apply (cs_write N me dt nmemb t o conc a um _ um' vs outs HS). intros i Hi. split; [reflexivity|]. apply (Hsrc i Hi).
  - intros _ Honce [T1 T2]. cbn [conce] in Honce. change (tracked (with_rows t o rows) g b').
    assert (Hnew : forall j, (j < length (t_sizes t))%nat -> nth j (b_fchecksum (merged N b')) 0 = (nth j (b_fchecksum (merged N b)) 0 + bytes_into (t_sizes t) j o rows) mod 2 ^ 32).
    { intros j Hj. rewrite (merged_nth N b' (t_sizes t) (e 0%nat) w j (ci_wb _ _ _ I' 0%nat HN) Hj), (merged_nth N b (t_sizes t) (e 0%nat) w j W0 Hj), (Hrec j Hj). rewrite Zplus_mod_idemp_l. reflexivity. }
    split.
    + change (t_sizes (with_rows t o rows)) with (t_sizes t). eapply sums_ok_ext; [intros q; symmetry; apply Eg|].
      assert (Lm : length (b_fchecksum (merged N b)) = S (length (t_sizes t))) by (apply (hl_cks _ _ (wb_layout _ _ _ _ (merged_wblock N e b (t_sizes t) w HN (ci_wb _ _ _ I))))).
      eapply sums_by; [|apply (sums_put_rows base (t_sizes t) w rows f o (b_fchecksum (merged N b)))]; try apply HL; auto; try apply Iv.
      * intros j Hj. rewrite (Hnew j Hj). symmetry. apply add_sums_nth; [rewrite Lm; lia|]. rewrite (merged_nth N b (t_sizes t) (e 0%nat) w j W0 Hj). rewrite Zmod_mod. reflexivity.
      * rewrite Lm. lia.
      * intros r Hr u Hu. destruct (hv_zero _ _ _ _ _ _ _ _ Iv _ _ Hu) as [X|(_ & -> & _)]; [|reflexivity]. cbn [resum t_row] in X. rewrite Honce in X by (rewrite Lr in Hr; exact Hr). discriminate X.
    + intros Hcl. destruct T2 as (v2 & ts2 & Iv2 & Dv2 & Hn2).
      { intros i Hi. specialize (Hcl i Hi). destruct (b_dirty (b i)) eqn:D; [|reflexivity]. destruct (like_fields _ _ (HK i Hi)) as (_ & _ & _ & _ & _ & X & _). rewrite X in Hcl by exact D. discriminate Hcl. }
      exists v2, ts2. split; [apply (hinv_rows _ _ _ _ _ (resum t ts2) f g v2 o rows); auto; rewrite Lr; exact Hin|]. split; [exact Dv2|].
      intros j Hj. change (t_sizes (with_rows t o rows)) with (t_sizes t) in Hj. rewrite (Hn2 j Hj). rewrite (merged_nth N b' (t_sizes t) (e 0%nat) w j (ci_wb _ _ _ I' 0%nat HN) Hj), (merged_nth N b (t_sizes t) (e 0%nat) w j W0 Hj).
      f_equal. unfold recorded. f_equal. apply map_ext_in. intros i Hi. apply in_seq in Hi. destruct (like_fields _ _ (HK i ltac:(lia))) as (_ & _ & _ & _ & _ & _ & X). rewrite X by (apply Hcl; lia). reflexivity.
Qed.

(* Reading. *)
Lemma read_leaves t f b o conc a um rc um' : cinv t f b ->
  cspec N me dt nmemb t (CRead o conc a um) (fun i => (rc, Some (um' i))) t -> step_to t (CRead o conc a um) f b (fun i => ((rc, Some (um' i)), b i)) f.
Proof. intros I S. exists t. split; [exact S|]. split; [exact I|]. split; [reflexivity|]. auto. Qed.

Lemma step_read t f b k o conc a um : cinv t f b -> cop_ok N me dt nmemb thr (t_sizes t) (CRead o conc a um) ->
  leads N [] (fun i => cstep N thr junk nbase e k i (b i) (CRead o conc a um)) f (step_to t (CRead o conc a um) f b).
Proof.
  intros I (Ho & Hend & Hsm & Hc). set (n := rank_rows a) in *.
  assert (Hn : forall i, (i < N)%nat -> 0 <= n i) by (intros i Hi; apply (Hc i Hi)).
  assert (Ht : 0 <= total N n) by (apply (before_mono n N Hn N (Nat.le_refl _))).
  destruct (ci_v _ _ _ I) as (v & ts & Iv & _).
  pose proof (wb_layout _ _ _ _ (ci_wb _ _ _ I 0%nat HN)) as HL0.
  destruct (Z_lt_dec (t_size t) o) as [Hfar|Hnear].
  { cbn [cstep]. apply leads_ext with (fun i => mret ((-1, Some (um i)), b i)).
    { intros i Hi. pose proof (wb_layout _ _ _ _ (ci_wb _ _ _ I i Hi)) as HL.
      destruct (seek_spec (b i) (t_sizes t) (mkPtr 0 0 0) o HL ltac:(lia)) as (_ & _ & H). rewrite H by (unfold t_size in Hfar; lia). reflexivity. }
    apply leads_ret. apply read_leaves; [exact I|]. apply (cs_read N me dt nmemb t o conc a um _ (-1) um); auto.
    intros es outs Hs _. fold n in Hs. lia. }
  destruct (coll_at t f b o n I (proj1 Ho) ltac:(unfold t_size in Hnear; lia) Hn Hend) as (Hseek & HC).
  cbn [cstep].
  apply leads_ext with (fun i => mbind (mpi_read thr (e i) (world N) i (b i) (at_row (b i) o) (a i) (um i) conc) (fun '(rc, b', _, um') => mret ((rc, Some um'), b'))).
  { intros i Hi. rewrite (Hseek i Hi). reflexivity. }
  assert (HTg : forall i, (i < N)%nat -> rank_target me (a i) (um i) (n i) nmemb) by (intros i Hi; apply (Hc i Hi)).
  assert (Bad : (t_size t < o + total N n \/ exists i q, (i < N)%nat /\ before n i <= q - o < before n i + n i /\ stored_row f base (t_sizes t) w q = None) ->
    leads N [] (fun i => mbind (mpi_read thr (e i) (world N) i (b i) (at_row (b i) o) (a i) (um i) conc) (fun '(rc, b', _, um') => mret ((rc, Some um'), b'))) f (step_to t (CRead o conc a um) f b)).
  { intros Hbad. eapply leads_bind; [apply (lead_read_any N me e b (fun i => at_row (b i) o) (t_sizes t) w base dt nmemb o n HN HC a um thr conc Hsm f HTg); intros i Hi _; apply (Hc i Hi)|].
    intros res g (-> & rc & Hrc & Hout & Hmiss & HB).
    assert (R1 : rc = -1).
    { destruct Hbad as [X|(i & q & Hi & Hq & Hs)]; [apply Hout; exact X|]. apply Hmiss. exists q. split; [|exact Hs].
      pose proof (before_mono n N Hn i ltac:(lia)). pose proof (before_mono n N Hn (S i) ltac:(lia)) as X. rewrite before_S in X. change (total N n) with (before n N). lia. }
    set (um' := fun i => match res i with (_, _, _, m) => m end).
    apply leads_ext with (fun i => mret ((-1, Some (um' i)), b i)).
    { intros i Hi. destruct (HB i Hi) as (p' & m' & E & _). unfold um'. rewrite E, R1. reflexivity. }
    apply leads_ret. apply read_leaves; [exact I|]. apply (cs_read N me dt nmemb t o conc a um _ (-1) um'); auto.
    - intros es outs Hs Hes. fold n in Hs, Hes. exfalso. destruct Hbad as [X|(i & q & Hi & Hq & Hsr)]; [lia|].
      destruct (Hes i Hi) as (L1 & _ & Hsh & _). destruct (nth_error (rows_of nmemb (n i) (es i)) (Z.to_nat (q - o - before n i))) as [u|] eqn:Eu.
      2:{ apply nth_error_None in Eu. rewrite rows_of_length in Eu. lia. }
      apply Hsh in Eu. replace (o + before n i + Z.of_nat (Z.to_nat (q - o - before n i))) with q in Eu by lia. rewrite <- Hw in Eu.
      change (shows w (resum t ts) q u) in Eu. eapply inv_shows in Eu; [|exact Iv]. cbn [resum t_sizes] in Eu. congruence.
    - intros i x Hi Hx. destruct (HB i Hi) as (p' & m' & E & _ & _ & F). unfold um'. rewrite E. apply F. exact Hx. }
  destruct (Z_lt_dec (t_size t) (o + total N n)) as [Hout|Hin]; [apply Bad; left; exact Hout|].
  destruct (all_or (exists i q, (i < N)%nat /\ before n i <= q - o < before n i + n i /\ stored_row f base (t_sizes t) w q = None)
    (fun i (x : list bytes * list bytes) => (zlen (fst x) = n i * nmemb /\ Forall (fun v => length v = Z.to_nat (itemsize me dt)) (fst x)) /\
       (forall j u, nth_error (rows_of nmemb (n i) (fst x)) j = Some u -> stored_row f base (t_sizes t) w (o + before n i + Z.of_nat j) = Some u) /\
       Forall2 (converts me dt (a_dtype (a i))) (fst x) (snd x)) ([], []) N) as [Hbad|(F & HF)]; [|apply Bad; right; exact Hbad|].
  { intros i Hi. destruct (stored_elems (e 0%nat) base dt nmemb w ltac:(lia) Hw31 (resum t ts) f v (o + before n i) (Z.to_nat (n i)) Iv) as [(r & Hr & Hs)|(es & L1 & F1 & Hs)].
    - left. exists i, r. cbn [resum t_sizes] in Hs. pose proof (Hn i Hi). split; [exact Hi|]. split; [lia|exact Hs].
    - right. pose proof (Hn i Hi). replace (Z.of_nat (Z.to_nat (n i))) with (n i) in * by lia. rewrite (Hme 0%nat HN) in F1.
      destruct (total_list me dt (a_dtype (a i)) (proj2 (proj2 (proj2 (Hc i Hi)))) es F1) as (outs & F2). exists (es, outs). auto. }
  eapply leads_bind; [apply (lead_read N me e b (fun i => at_row (b i) o) (t_sizes t) w base dt nmemb o n HN HC a um thr conc Hsm (fun i => fst (F i)) (fun i => snd (F i)) f HTg)|].
  { intros i Hi. apply (Hc i Hi). } { intros i Hi. apply (HF i Hi). } { intros i Hi. apply (HF i Hi). } { unfold t_size in Hin. lia. }
  { intros i j u Hi Hj. apply (HF i Hi). exact Hj. }
  intros res g (-> & HB). set (um' := fun i => match res i with (_, _, _, m) => m end).
  apply leads_ext with (fun i => mret ((0, Some (um' i)), b i)).
  { intros i Hi. destruct (HB i Hi) as (p' & m' & E & _). unfold um'. rewrite E. reflexivity. }
  apply leads_ret. apply read_leaves; [exact I|].
  assert (Wm : forall i, (i < N)%nat -> wrote (um i) (um' i) (elem_addr (a i)) (itemsize me (a_dtype (a i))) 0 (snd (F i))).
  { intros i Hi. destruct (HB i Hi) as (p' & m' & E & _ & Wt). unfold um'. rewrite E. exact Wt. }
  apply (cs_read N me dt nmemb t o conc a um _ 0 um'); auto; fold n.
  - intros X. lia.
  - intros r Hr Habs. exfalso. destruct (owner n N (r - o) Hn) as (i & Hi & Hb); [change (before n N) with (total N n); lia|].
    change (absent (resum t ts) r) in Habs. eapply inv_absent in Habs; [|exact Iv]. cbn [resum t_sizes] in Habs.
    destruct (HF i Hi) as (_ & Hst & _). destruct (nth_error (rows_of nmemb (n i) (fst (F i))) (Z.to_nat (r - o - before n i))) as [u|] eqn:Eu.
    2:{ apply nth_error_None in Eu. rewrite rows_of_length in Eu. lia. }
    apply Hst in Eu. replace (o + before n i + Z.of_nat (Z.to_nat (r - o - before n i))) with r in Eu by lia. congruence.
  - intros es outs _ Hes. split; [reflexivity|]. intros i Hi. destruct (Hes i Hi) as (L1 & F1 & Hsh & F2). destruct (HF i Hi) as ((L1' & F1') & Hst & F2').
    assert (Ee : rows_of nmemb (n i) (fst (F i)) = rows_of nmemb (n i) (es i)).
    { apply nth_error_ext_len; [rewrite !rows_of_length; reflexivity|]. intros j u u' Hu Hu'. apply Hst in Hu. apply Hsh in Hu'. rewrite <- Hw in Hu'.
      change (shows w (resum t ts) (o + before n i + Z.of_nat j) u') in Hu'. eapply inv_shows in Hu'; [|exact Iv]. cbn [resum t_sizes] in Hu'. congruence. }
    assert (E2 : fst (F i) = es i).
    { apply (f_equal (@concat byte)) in Ee. rewrite !rows_of_concat in Ee by (auto; lia). eapply concat_widths; [exact F1'|exact F1|unfold zlen in *; lia|exact Ee]. }
    assert (E3 : snd (F i) = outs i). { rewrite E2 in F2'. eapply converts_fun; eauto. }
    rewrite <- E3. apply Wm. exact Hi.
  - intros i x Hi Hx. apply (proj2 (Wm i Hi)). destruct (HF i Hi) as ((L1 & _) & _ & F2). apply Forall2_length in F2. replace (zlen (snd (F i))) with (n i * nmemb) by (unfold zlen in *; lia). exact Hx.
Qed.

Theorem step_all t f b k op : cinv t f b -> cop_ok N me dt nmemb thr (t_sizes t) op ->
  leads N [] (fun i => cstep N thr junk nbase e k i (b i) op) f (step_to t op f b).
Proof.
  intros I Hok. destruct op.
  - apply step_write; assumption.
  - apply step_read; assumption.
  - eapply leads_mono; [|apply (step_grow t f b k gs I Hok)]. intros res g [H _]. exact H.
  - eapply leads_mono; [|apply (step_flush t f b k I)]. intros res g [H _]. exact H.
  - apply (step_reopen t f b k I).
Qed.

(* Histories. *)
Theorem run_all : forall os k t f b, cinv t f b -> chistory_ok N me dt nmemb thr (t_sizes t) os ->
  leads N [] (fun i => crun N thr junk nbase e k i (b i) os) f (fun res g => exists xs t', cspecs N me dt nmemb t os xs t' /\ cinv t' g (fun i => snd (res i)) /\
    (forall i, (i < N)%nat -> fst (res i) = map (fun x => x i) xs) /\
    (N = 1%nat \/ Forall transfer os -> cwritten_once N me dt nmemb t os -> tracked t f b -> tracked t' g (fun i => snd (res i)))).
Proof.
  induction os as [|op os IH]; intros k t f b I Hok.
  - cbn [crun]. apply leads_ret. exists [], t. split; [constructor|]. split; [exact I|]. split; [reflexivity|]. auto.
  - destruct Hok as [Hop Hos]. cbn [crun]. eapply leads_bind; [apply (step_all t f b k op I Hop)|].
    intros res g (t1 & S1 & I1 & Z1 & T1). cbv beta in S1, I1, T1. rewrite <- Z1 in Hos.
    apply leads_ext with (fun i => mbind (crun N thr junk nbase e (k + 2) i (snd (res i)) os) (fun '(xs, b2) => mret (fst (res i) :: xs, b2))).
    { intros i Hi. destruct (res i) as [x b1]. reflexivity. }
    eapply leads_bind; [apply (IH (k + 2)%nat t1 g (fun i => snd (res i)) I1 Hos)|].
    intros res2 g2 (xs & t2 & S2 & I2 & E2 & T2).
    apply leads_ext with (fun i => mret (fst (res i) :: fst (res2 i), snd (res2 i))); [intros i Hi; destruct (res2 i); reflexivity|]. apply leads_ret. exists ((fun i => fst (res i)) :: xs), t2. cbn [fst snd].
    split; [econstructor; [exact S1|exact S2]|]. split; [exact I2|]. split; [intros i Hi; cbn [map]; rewrite (E2 i Hi); reflexivity|].
    intros Hk [Hw1 Hw2] HT. apply T2.
    + destruct Hk as [Hk|Hk]; [left; exact Hk|right; inversion Hk; assumption].
    + eapply Hw2. exact S1.
    + apply T1; auto. destruct Hk as [Hk|Hk]; [left; exact Hk|right; inversion Hk; assumption].
Qed.

(* The same, with a flush at the end. *)
Theorem run_flush : forall os k t f b, cinv t f b -> chistory_ok N me dt nmemb thr (t_sizes t) os ->
  leads N [] (fun i => crun N thr junk nbase e k i (b i) (os ++ [CFlush])) f (fun res g => exists xs t', cspecs N me dt nmemb t (os ++ [CFlush]) xs t' /\ cinv t' g (fun i => snd (res i)) /\
    (forall i, (i < N)%nat -> fst (res i) = map (fun x => x i) xs) /\
    (exists v ts, hinv (e 0%nat) base dt nmemb w (resum t' ts) g v /\ b_dirty v = false) /\
    (N = 1%nat \/ Forall transfer os -> cwritten_once N me dt nmemb t os -> tracked t f b -> exists v, saved t' g v)).
Proof.
  induction os as [|op os IH]; intros k t f b I Hok.
  - cbn [app crun]. eapply leads_bind; [apply (step_flush t f b k I)|].
    cbv beta. intros res g (_ & R & I' & Hv & HT).
    apply leads_ext with (fun i => mret ([fst (res i)], snd (res i))); [intros i Hi; destruct (res i); reflexivity|]. apply leads_ret.
    exists [fun i => fst (res i)], t. cbn [fst snd]. split; [econstructor; [|constructor]; constructor; exact R|]. split; [exact I'|]. split; [reflexivity|]. split; [exact Hv|].
    intros _ _. exact HT.
  - destruct Hok as [Hop Hos]. cbn [app crun]. eapply leads_bind; [apply (step_all t f b k op I Hop)|].
    intros res g (t1 & S1 & I1 & Z1 & T1). cbv beta in S1, I1, T1. rewrite <- Z1 in Hos.
    apply leads_ext with (fun i => mbind (crun N thr junk nbase e (k + 2) i (snd (res i)) (os ++ [CFlush])) (fun '(xs, b2) => mret (fst (res i) :: xs, b2))).
    { intros i Hi. destruct (res i) as [x b1]. reflexivity. }
    eapply leads_bind; [apply (IH (k + 2)%nat t1 g (fun i => snd (res i)) I1 Hos)|].
    intros res2 g2 (xs & t2 & S2 & I2 & E2 & V2 & T2).
    apply leads_ext with (fun i => mret (fst (res i) :: fst (res2 i), snd (res2 i))); [intros i Hi; destruct (res2 i); reflexivity|]. apply leads_ret. exists ((fun i => fst (res i)) :: xs), t2. cbn [fst snd].
    split; [econstructor; [exact S1|exact S2]|]. split; [exact I2|]. split; [intros i Hi; cbn [map]; rewrite (E2 i Hi); reflexivity|]. split; [exact V2|].
    intros Hk [Hw1 Hw2] HT. apply T2.
    + destruct Hk as [Hk|Hk]; [left; exact Hk|right; inversion Hk; assumption].
    + eapply Hw2. exact S1.
    + apply T1; auto. destruct Hk as [Hk|Hk]; [left; exact Hk|right; inversion Hk; assumption].
Qed.
End Hist.

(* ------------------------------------------------- create or open, then run *)
Section Run.
Variables (N : nat) (me : endian) (thr : Z) (junk : nat -> nat -> nat -> nat -> byte) (nbase : nat -> nat -> Z) (e : nat -> env).
Variables (base dt : bytes) (nmemb : Z).
Let w := itemsize me dt * nmemb.
Hypothesis HN : (0 < N)%nat.
Hypothesis Hme : forall i, (i < N)%nat -> e_me (e i) = me.
Hypothesis Hnb : nul_free base.

Lemma create_all d sizes f : dt = dtype_normalize me d -> (forall i, (i < N)%nat -> new_block (e i) f base d nmemb sizes) -> nul_free d ->
  leads N [] (fun i => mpi_create (junk 0%nat i) (e i) (world N) i (nbase 0%nat i) base (Some d) nmemb (zlen sizes) sizes) f (fun res g =>
    (forall i, (i < N)%nat -> fst (res i) = 0) /\ cinv N me e base dt nmemb w (new_table sizes) g (fun i => snd (res i)) /\
    tracked N e base dt nmemb w (new_table sizes) g (fun i => snd (res i))).
Proof.
  intros Edt0 HB Hd. pose proof (HB 0%nat HN) as B0. destruct B0. rewrite (Hme 0%nat HN) in *. rewrite <- Edt0 in nb_type, nb_dt, nb_chunk, nb_width. fold w in nb_chunk, nb_width.
  destruct (hist_create (e 0%nat) f base d nmemb sizes) as (f1 & b1 & E & I & Hs); auto; [lia|rewrite (Hme 0%nat HN), <- Edt0; exact nb_dt|].
  rewrite (Hme 0%nat HN), <- Edt0 in I. fold w in I.
  destruct (create_spec (e 0%nat) f base d nmemb sizes nb_name nb_dir nb_layout) as (f1' & b1' & E' & Lay & Edt & Enm & Eb & Hok1 & Hdi & Hadi & Hck & Hd' & Hh & Ha2 & Hdata & O).
  rewrite E in E'. injection E' as <- <-.
  assert (CF : create_fits base (Some d) nmemb (zlen sizes) sizes).
  { destruct nb_layout as (L1 & L2 & L3). split; [exact Hnb|]. split; [lia|]. split; [lia|]. split; [|exact Hd].
    apply Forall_forall. intros z Hz. pose proof (in_le_zsum _ _ L1 Hz). rewrite Forall_forall in L1. specialize (L1 _ Hz). lia. }
  assert (T1 : transferable me b1).
  { pose proof E as EC. unfold big_block_create in EC. destruct (create_internal (e 0%nat) f base (Some d) nmemb (zlen sizes) sizes) as [[f0 [b0|]]| |] eqn:EI; try discriminate EC.
    destruct (created_sendable me (e 0%nat) f base (Some d) nmemb (zlen sizes) sizes f0 b0 (Hme 0%nat HN) CF EI) as [T _].
    cbn [bind] in EC. destruct (truncate_files f0 (b_base b0) 0 (Z.to_nat (b_Nfile b0))) as [rc ff] eqn:ET. destruct (negb (rc =? 0)); [discriminate EC|]. injection EC as _ <-. exact T. }
  assert (Ba : bare base f1).
  { split; [|right; exact Ha2]. rewrite O; auto. intros [X|[X|(j & Hj & X)]]; [symmetry in X; revert X; apply header_not_attr1|revert X; apply attr1_not_attr2|symmetry in X; revert X; apply data_not_attr1; lia]. }
  eapply leads_mono; [|apply (lead_create N me (junk 0%nat) e (nbase 0%nat) HN Hme base (Some d) nmemb (zlen sizes) sizes f f1 (Some b1) CF E)].
  intros res g (Eg & R).
  assert (HH : forall i, (i < N)%nat -> fst (res i) = 0 /\ handed b1 i (snd (res i))) by (intros i Hi; destruct (R i Hi) as (b' & -> & H); auto).
  assert (Ig : hinv (e 0%nat) base dt nmemb w (new_table sizes) g b1) by (eapply hinv_same; [|exact I]; split; [symmetry; apply Eg|intros p _; symmetry; apply Eg]).
  assert (Bg : bare base g) by (apply (bare_frame base f1); [exact Ba|intros p _; symmetry; apply Eg]).
  assert (R0 : snd (res 0%nat) = b1) by (apply (proj2 (proj2 (HH 0%nat HN))); reflexivity).
  assert (I0 : cinv N me e base dt nmemb w (new_table sizes) g (fun i => snd (res i))).
  { apply (cinv_handed N me e base dt nmemb w HN Hme (new_table sizes) (fun _ => 0) g b1 b1); auto; try apply I.
    - rewrite Hdi. discriminate.
    - intros i Hi. apply (HH i Hi). }
  assert (Hsame : forall i, (i < N)%nat -> b_fchecksum (snd (res i)) = repeat 0 (S (length sizes))).
  { intros i Hi. rewrite (same_cks (e 0%nat) b1 (snd (res i)) sizes w); [exact Hck|apply (HH i Hi)|apply I]. }
  assert (Hm : forall j, (j < length sizes)%nat -> nth j (b_fchecksum (merged N (fun i => snd (res i)))) 0 = 0).
  { intros j Hj. rewrite (merged_nth N _ sizes (e 0%nat) w j (ci_wb _ _ _ _ _ _ _ _ _ _ I0 0%nat HN) Hj). unfold recorded.
    rewrite (map_ext_in _ (fun _ => 0)); [|intros i Hi; apply in_seq in Hi; rewrite Hsame by lia; apply nth_repeat0_z].
    assert (Z : forall l : list nat, zsum (map (fun _ => 0) l) = 0) by (induction l as [|x l IHl]; [reflexivity|cbn [map]; rewrite zsum_cons, IHl; reflexivity]). rewrite Z. reflexivity. }
  assert (T0 : tracked N e base dt nmemb w (new_table sizes) g (fun i => snd (res i))).
  { split.
    - intros i c Hi Hc. cbn [new_table t_sizes] in Hi. rewrite Hm by exact Hi. unfold data_file in Hc. rewrite <- Eg in Hc. fold (data_file f1 base i) in Hc. rewrite Hdata in Hc by exact Hi. injection Hc as <-. reflexivity.
    - intros _. exists b1, (fun _ => 0). split; [exact Ig|]. split; [exact Hdi|]. cbn [new_table t_sizes]. intros j Hj. rewrite Hm by exact Hj. rewrite Hck. apply nth_repeat0_z. }
  split; [intros i Hi; apply (HH i Hi)|]. split; [exact I0|exact T0].
Qed.

(* A history after the creation. *)
Definition ran_ok (os : list cop) (t : table) (res : nat -> Z * (list hres * block)) (t' : table) : Prop :=
  exists xs, cspecs N me dt nmemb t os xs t' /\ forall i, (i < N)%nat -> fst (res i) = 0 /\ fst (snd (res i)) = map (fun x => x i) xs.
Lemma chunks d sizes f : dt = dtype_normalize me d -> (forall i, (i < N)%nat -> new_block (e i) f base d nmemb sizes) -> forall i, (i < N)%nat -> w <= e_chunk (e i).
Proof. intros E HB i Hi. destruct (HB i Hi). rewrite (Hme i Hi), <- E in nb_chunk. exact nb_chunk. Qed.

Theorem create_run d sizes os f : dt = dtype_normalize me d -> (forall i, (i < N)%nat -> new_block (e i) f base d nmemb sizes) -> nul_free d -> chistory_ok N me dt nmemb thr sizes os ->
  leads N [] (fun i => ccreate_run N thr junk nbase e i base d nmemb sizes os) f (fun res g => exists t, ran_ok os (new_table sizes) res t /\
    cinv N me e base dt nmemb w t g (fun i => snd (snd (res i)))).
Proof.
  intros Edt HB Hd Hok. pose proof (chunks d sizes f Edt HB) as Hch. pose proof (HB 0%nat HN) as B0. destruct B0. rewrite (Hme 0%nat HN), <- Edt in *.
  unfold ccreate_run. eapply leads_bind; [apply (create_all d sizes f Edt HB Hd)|]. cbv beta. intros res g (R & I0 & T0).
  apply leads_ext with (fun i => mbind (crun N thr junk nbase e 1 i (snd (res i)) os) (fun r => mret (0, r))).
  { intros i Hi. specialize (R i Hi). destruct (res i) as [rc bb]. cbn [fst] in R. subst rc. reflexivity. }
  eapply leads_bind; [apply (run_all N me thr junk nbase e base dt nmemb w HN Hme nb_name nb_type nb_nmemb) with (t := new_table sizes) (b := fun i => snd (res i)); auto|].
  intros res2 g2 (xs & t' & S & I' & Ex & T). apply leads_ret. exists t'. cbn [fst snd]. split; [|exact I']. exists xs. split; [exact S|]. intros i Hi. split; [reflexivity|apply Ex; exact Hi].
Qed.

(* ... and a flush. *)
Theorem create_run_flush d sizes os f : dt = dtype_normalize me d -> (forall i, (i < N)%nat -> new_block (e i) f base d nmemb sizes) -> nul_free d -> chistory_ok N me dt nmemb thr sizes os ->
  leads N [] (fun i => ccreate_run N thr junk nbase e i base d nmemb sizes (os ++ [CFlush])) f (fun res g => exists t, ran_ok (os ++ [CFlush]) (new_table sizes) res t /\
    bare base g /\ (exists v ts, hinv (e 0%nat) base dt nmemb w (resum t ts) g v /\ b_dirty v = false) /\
    (N = 1%nat \/ Forall transfer os -> cwritten_once N me dt nmemb (new_table sizes) os -> exists v, saved e base dt nmemb w t g v)).
Proof.
  intros Edt HB Hd Hok. pose proof (chunks d sizes f Edt HB) as Hch. pose proof (HB 0%nat HN) as B0. destruct B0. rewrite (Hme 0%nat HN), <- Edt in *.
  unfold ccreate_run. eapply leads_bind; [apply (create_all d sizes f Edt HB Hd)|]. cbv beta. intros res g (R & I0 & T0).
  apply leads_ext with (fun i => mbind (crun N thr junk nbase e 1 i (snd (res i)) (os ++ [CFlush])) (fun r => mret (0, r))).
  { intros i Hi. specialize (R i Hi). destruct (res i) as [rc bb]. cbn [fst] in R. subst rc. reflexivity. }
  eapply leads_bind; [apply (run_flush N me thr junk nbase e base dt nmemb w HN Hme nb_name nb_type nb_nmemb) with (t := new_table sizes) (b := fun i => snd (res i)); auto|].
  intros res2 g2 (xs & t' & S & I' & Ex & Hv & T). apply leads_ret. exists t'. cbn [fst snd]. split; [exists xs; split; [exact S|]; intros i Hi; split; [reflexivity|apply Ex; exact Hi]|].
  split; [apply I'|]. split; [exact Hv|]. intros H1 H2. apply T; auto.
Qed.

Lemma hinv_env e0 e1 t f v : e_me e0 = me -> e_me e1 = me -> bare base f -> hinv e0 base dt nmemb w t f v -> hinv e1 base dt nmemb w t f v.
Proof.
  intros Em0 Em1 B I. destruct (open_attrs_none e1 f base (proj1 B) (proj2 B)) as (s & Ea & As & Ad).
  destruct I. constructor; auto; [|exists s; auto]. eapply me_wblock; [|exact hv_wb]. congruence.
Qed.

(* All ranks open a block that somebody else has left. *)
Theorem open_run e0 t f v os : e_me e0 = me -> block_name base -> header_type dt -> 0 < nmemb < 2 ^ 31 -> (forall i, (i < N)%nat -> w <= e_chunk (e i)) -> w < 2 ^ 31 ->
  hinv e0 base dt nmemb w t f v -> b_dirty v = false -> bare base f -> chistory_ok N me dt nmemb thr (t_sizes t) os ->
  leads N [] (fun i => copen_run N thr junk nbase e i base os) f (fun res g => exists t', ran_ok os t res t' /\ cinv N me e base dt nmemb w t' g (fun i => snd (snd (res i)))).
Proof.
  intros Em Hn Hty Hnm Hch Hw31 Iv Dv B Hok. apply (hinv_env e0 (e 0%nat)) in Iv; auto. unfold copen_run.
  eapply leads_bind; [apply (copen N me junk nbase e base dt nmemb w HN Hme Hn Hty Hnm) with (t := t) (ts := t_sum t) (v := v); auto; destruct t; exact Iv|].
  cbv beta. intros res g (-> & R & I0 & _).
  apply leads_ext with (fun i => mbind (crun N thr junk nbase e 1 i (snd (res i)) os) (fun r => mret (0, r))).
  { intros i Hi. specialize (R i Hi). destruct (res i) as [rc bb]. cbn [fst] in R. subst rc. reflexivity. }
  eapply leads_bind; [apply (run_all N me thr junk nbase e base dt nmemb w HN Hme Hn Hty Hnm) with (t := t) (b := fun i => snd (res i)); auto|].
  intros res2 g2 (xs & t' & S & I' & Ex & T). apply leads_ret. exists t'. cbn [fst snd]. split; [|exact I']. exists xs. split; [exact S|]. intros i Hi. split; [reflexivity|apply Ex; exact Hi].
Qed.
End Run.

(* ------------------------------------------------------ under every schedule *)
Section Ends.
Variables (N : nat) (me : endian) (junk : nat -> nat -> nat -> byte) (nbase : nat -> Z) (e : nat -> env).
Hypothesis HN : (0 < N)%nat.
Hypothesis Hme : forall i, (i < N)%nat -> e_me (e i) = me.

Lemma share_once n j : 0 <= j < n -> exists i, (i < N)%nat /\ fst (share n (world N) i) <= j < snd (share n (world N) i) /\
  forall k, (k < N)%nat -> fst (share n (world N) k) <= j < snd (share n (world N) k) -> k = i.
Proof.
  intros Hj.
  assert (M : forall i k, (i <= k)%nat -> cut N n i <= cut N n k).
  { intros i k Hik. induction Hik as [|k Hik IH]; [lia|]. pose proof (cut_mono N me junk e nbase HN Hme n k ltac:(lia)). lia. }
  assert (Own : forall m, j < cut N n m -> exists i, (i < m)%nat /\ cut N n i <= j < cut N n (S i)).
  { induction m as [|m IH]; intros H; [rewrite (cut_zero N me junk e nbase HN Hme) in H; lia|]. destruct (Z_lt_dec j (cut N n m)) as [L|L]; [destruct (IH L) as (i & Hi & Hc); exists i; split; [lia|exact Hc]|exists m; split; lia]. }
  destruct (Own N) as (i & Hi & Hc); [rewrite (cut_all N me junk e nbase HN Hme); lia|]. exists i. split; [exact Hi|]. rewrite (share_cut N HN n i Hi). split; [exact Hc|].
  intros k Hk. rewrite (share_cut N HN n k Hk). cbn [fst snd]. intros Hck. destruct (Nat.lt_trichotomy k i) as [L|[E|L]]; [|exact E|].
  - pose proof (M (S k) i ltac:(lia)). lia.
  - pose proof (M (S i) k ltac:(lia)). lia.
Qed.

Theorem coll_create base dtype nmemb Nfile fsize f f1 ob : create_fits base dtype nmemb Nfile fsize ->
  big_block_create (e 0%nat) f base dtype nmemb Nfile fsize = Ret (f1, ob) ->
  ends N (fun res s => match ob with
      | Some b => fs_eq f1 (g_fs s) /\ forall i, (i < N)%nat -> exists b', res i = (0, b') /\ handed b i b'
      | None => forall i, (i < N)%nat -> fst (res i) = -1
      end)
    (launch (fun i => whole (mpi_create (junk i) (e i) (world N) i (nbase i) base dtype nmemb Nfile fsize)) f).
Proof. intros HF E. apply (ends_leads N _ f (handle_result N ob f1)). apply (lead_create N me junk e nbase HN Hme base dtype nmemb Nfile fsize f f1 ob HF E). Qed.

Theorem coll_open base f ob : big_block_open (e 0%nat) f base = Ret ob -> (forall b, ob = Some b -> transferable me b) ->
  ends N (fun res s => g_fs s = f /\ match ob with
      | Some b => forall i, (i < N)%nat -> exists b', res i = (0, b') /\ handed b i b'
      | None => forall i, (i < N)%nat -> fst (res i) = -1
      end)
    (launch (fun i => whole (mpi_open (junk i) (e i) (world N) i (nbase i) base)) f).
Proof.
  intros E HT. eapply ends_mono; [|apply (ends_leads N _ f (open_result N ob f)); apply (lead_open N me junk e nbase HN Hme base f ob E HT)].
  intros res s (G & R). split; [exact G|]. destruct ob; exact R.
Qed.

Theorem coll_grow b ngrow fsize f rc f1 b1 : transferable me (b 0%nat) -> grow_fits (b 0%nat) ngrow fsize -> (forall i, (i < N)%nat -> b_Nfile (b i) = b_Nfile (b 0%nat)) ->
  big_block_grow f (b 0%nat) ngrow fsize = Ret (rc, f1, b1) ->
  ends N (fun res s => (rc = 0 -> fs_eq f1 (g_fs s)) /\ forall i, (i < N)%nat -> exists b', res i = (rc, b') /\ handed b1 i b')
    (launch (fun i => whole (mpi_grow (junk i) (e i) (world N) i (nbase i) (b i) ngrow fsize)) f).
Proof. intros HT HF HNf E. apply (ends_leads N _ f (grow_result N rc b1 f1)). apply (lead_grow N me junk e nbase HN Hme b ngrow fsize f rc f1 b1 HT HF HNf E). Qed.

Theorem coll_flush b f rc f1 b1 : (forall i, (i < N)%nat -> b_Nfile (b i) = b_Nfile (b 0%nat) /\ b_Nfile (b 0%nat) <= zlen (b_fchecksum (b i))) -> 0 <= b_Nfile (b 0%nat) ->
  big_block_flush (e 0%nat) f (merged N b) = Ret (rc, f1, b1) -> (rc = 0 -> transferable me b1) ->
  ends N (fun res s => g_fs s = f1 /\ forall i, (i < N)%nat -> fst (res i) = rc /\ (rc = 0 -> handed b1 i (snd (res i))))
    (launch (fun i => whole (mpi_flush (junk i) (e i) (world N) i (nbase i) (b i))) f).
Proof. intros H1 H2 E HT. apply (ends_leads N _ f (flush_result N rc b1 f1)). apply (lead_flush N me junk e nbase HN Hme b f rc f1 b1 H1 H2 E HT). Qed.
End Ends.

Section EndsRun.
Variables (N : nat) (me : endian) (thr : Z) (junk : nat -> nat -> nat -> nat -> byte) (nbase : nat -> nat -> Z) (e : nat -> env).
Variables (base d : bytes) (nmemb : Z) (sizes : list Z).
Let dt := dtype_normalize me d.
Hypothesis HN : (0 < N)%nat.
Hypothesis Hme : forall i, (i < N)%nat -> e_me (e i) = me.
Hypothesis Hnb : nul_free base.

Theorem coll_history f os : (forall i, (i < N)%nat -> new_block (e i) f base d nmemb sizes) -> nul_free d -> chistory_ok N me dt nmemb thr sizes os ->
  ends N (fun res s => exists xs t, cspecs N me dt nmemb (new_table sizes) os xs t /\ handles N base dt nmemb t (fun i => snd (snd (res i))) /\
      forall i, (i < N)%nat -> fst (res i) = 0 /\ fst (snd (res i)) = map (fun x => x i) xs)
    (launch (fun i => whole (ccreate_run N thr junk nbase e i base d nmemb sizes os)) f).
Proof.
  intros HB Hd Hok. eapply ends_mono; [|apply ends_leads; apply (create_run N me thr junk nbase e base dt nmemb HN Hme Hnb d sizes os f eq_refl HB Hd Hok)].
  cbv beta. intros res s (t & (xs & S & R) & I). exists xs, t. split; [exact S|]. split; [eapply cinv_handles; exact I|exact R].
Qed.

Theorem coll_checksums f os : (forall i, (i < N)%nat -> new_block (e i) f base d nmemb sizes) -> nul_free d -> chistory_ok N me dt nmemb thr sizes os ->
  N = 1%nat \/ Forall transfer os -> cwritten_once N me dt nmemb (new_table sizes) os ->
  ends N (fun res s => exists xs t, cspecs N me dt nmemb (new_table sizes) (os ++ [CFlush]) xs t /\
      (forall i, (i < N)%nat -> fst (res i) = 0 /\ fst (snd (res i)) = map (fun x => x i) xs) /\
      forall e0, e_me e0 = me -> exists b, big_block_open e0 (g_fs s) base = Ret (Some b) /\ has_layout b (t_sizes t) /\ sums_ok (g_fs s) base (t_sizes t) (b_fchecksum b))
    (launch (fun i => whole (ccreate_run N thr junk nbase e i base d nmemb sizes (os ++ [CFlush]))) f).
Proof.
  intros HB Hd Hok Hk Hw. eapply ends_mono; [|apply ends_leads; apply (create_run_flush N me thr junk nbase e base dt nmemb HN Hme Hnb d sizes os f eq_refl HB Hd Hok)].
  cbv beta. intros res s (t & (xs & S & R) & B & _ & HS). exists xs, t. split; [exact S|]. split; [exact R|]. intros e0 Em.
  destruct (HS Hk Hw) as (v & (ts & Iv) & Dv & Sv). pose proof (HB 0%nat HN) as B0. destruct B0. rewrite (Hme 0%nat HN) in *. fold dt in nb_type, nb_dt, nb_chunk, nb_width.
  destruct (open_ready N me junk nbase e base dt nmemb _ HN Hme nb_name nb_type nb_nmemb (chunks N me e base dt nmemb Hme d sizes f eq_refl HB) Hnb t ts (g_fs s) v e0 Em Iv Dv B) as (b2 & Eo & I2 & _ & _ & Hn).
  exists b2. split; [exact Eo|]. split; [apply (wb_layout _ _ _ _ (hv_wb _ _ _ _ _ _ _ _ I2))|]. eapply sums_by; [exact Hn|exact Sv].
Qed.

Theorem coll_then_serial f os e0 : (forall i, (i < N)%nat -> new_block (e i) f base d nmemb sizes) -> nul_free d -> chistory_ok N me dt nmemb thr sizes os ->
  e_me e0 = me -> itemsize me dt * nmemb <= e_chunk e0 ->
  ends N (fun res s => exists xs t b t2, cspecs N me dt nmemb (new_table sizes) (os ++ [CFlush]) xs t /\ same_rows t t2 /\
      big_block_open e0 (g_fs s) base = Ret (Some b) /\ b_size b = t_size t /\
      forall hs, history_ok me dt nmemb (t_sizes t) hs -> exists ys f' b' t', hrun e0 (g_fs s, b) hs = Ret (ys, (f', b')) /\ hspecs me dt nmemb t2 hs ys t')
    (launch (fun i => whole (ccreate_run N thr junk nbase e i base d nmemb sizes (os ++ [CFlush]))) f).
Proof.
  intros HB Hd Hok Em Hch. eapply ends_mono; [|apply ends_leads; apply (create_run_flush N me thr junk nbase e base dt nmemb HN Hme Hnb d sizes os f eq_refl HB Hd Hok)].
  cbv beta. intros res s (t & (xs & S & R) & B & (v & ts & Iv & Dv) & _).
  pose proof (HB 0%nat HN) as B0. destruct B0. rewrite (Hme 0%nat HN) in *. fold dt in nb_type, nb_dt, nb_chunk, nb_width.
  destruct (open_ready N me junk nbase e base dt nmemb _ HN Hme nb_name nb_type nb_nmemb (chunks N me e base dt nmemb Hme d sizes f eq_refl HB) Hnb t ts (g_fs s) v e0 Em Iv Dv B) as (b2 & Eo & I2 & _ & _ & _).
  exists xs, t, b2, (resum t ts). split; [exact S|]. split; [split; reflexivity|]. split; [exact Eo|]. split; [apply (hl_size _ _ (wb_layout _ _ _ _ (hv_wb _ _ _ _ _ _ _ _ I2)))|].
  intros hs Hh. rewrite <- Em in Hh. destruct (hist_run e0 base dt nmemb _ nb_name nb_type (proj2 nb_nmemb) Hch nb_width hs (resum t ts) (g_fs s) b2 I2 Hh) as (ys & f' & b' & t' & E & Hs & _).
  rewrite Em in Hs. exists ys, f', b', t'. split; assumption.
Qed.

Theorem serial_then_coll e0 f hs ys f1 b1 os : new_block e0 f base d nmemb sizes -> e_me e0 = me -> (forall i, (i < N)%nat -> itemsize me dt * nmemb <= e_chunk (e i)) ->
  history_ok me dt nmemb sizes hs -> create_and_run e0 f base d nmemb sizes hs = Ret (Some (ys, (f1, b1))) -> b_dirty b1 = false -> no_attributes f1 base ->
  exists t, hspecs me dt nmemb (new_table sizes) hs ys t /\
    (chistory_ok N me dt nmemb thr (t_sizes t) os ->
     ends N (fun res s => exists xs t', cspecs N me dt nmemb t os xs t' /\ handles N base dt nmemb t' (fun i => snd (snd (res i))) /\
         forall i, (i < N)%nat -> fst (res i) = 0 /\ fst (snd (res i)) = map (fun x => x i) xs)
       (launch (fun i => whole (copen_run N thr junk nbase e i base os)) f1)).
Proof.
  intros HB Em Hch Hh E D Ba. destruct (history e0 f base d nmemb sizes hs HB) as (ys' & f1' & b1' & t & E' & S & I & _); [rewrite Em; exact Hh|].
  rewrite E in E'. injection E' as <- <- <-. rewrite Em in S, I. fold dt in S, I. exists t. split; [exact S|]. intros Hok.
  destruct HB. rewrite Em in *. fold dt in nb_type, nb_dt, nb_chunk, nb_width.
  eapply ends_mono; [|apply ends_leads; apply (open_run N me thr junk nbase e base dt nmemb HN Hme Hnb e0 t f1 b1 os); auto].
  cbv beta. intros res s (t' & (xs & S' & R) & I'). exists xs, t'. split; [exact S'|]. split; [eapply cinv_handles; exact I'|exact R].
Qed.
End EndsRun.
