(* Several Columns of one block. *)
From Coq.Strings Require Import Byte String.
From Coq Require Import List ZArith Lia Bool ZifyBool ZifyNat.
From Verif Require Import Base BaseFacts Dtype Cast Array FS Fmt Attr Block Pack Spec AttrSpec OpenSpec PackSpec HistSpec CHistSpec Pickle PickleSpec
  DtypeFacts SeekFacts FSFacts ArrayFacts ConvFacts WriteFacts ReadFacts TableFacts IOFacts OpenFacts AttrFacts PackFacts ReopenFacts FrameFacts HistFacts HandleFacts CHistFacts.
Import ListNotations.
Open Scope Z_scope.
Ltac Zify.zify_post_hook ::= Z.div_mod_to_equations.

(* ------------------------------------------------------------------ lists *)
Lemma set_at_length {A} (l : list A) : forall i x, length (set_at l i x) = length l.
Proof. induction l as [|y l IH]; intros [|i] x; cbn [set_at length]; auto. Qed.
Lemma set_at_same {A} (l : list A) : forall i x, (i < length l)%nat -> nth_error (set_at l i x) i = Some x.
Proof. induction l as [|y l IH]; intros [|i] x H; cbn [set_at length nth_error] in *; auto; try lia. apply IH. lia. Qed.
Lemma set_at_other {A} (l : list A) : forall i j x, i <> j -> nth_error (set_at l i x) j = nth_error l j.
Proof. induction l as [|y l IH]; intros [|i] [|j] x H; cbn [set_at nth_error]; auto; try congruence. Qed.
Lemma view_lt vs i v : view_at vs i = Some v -> (i < length vs)%nat.
Proof. unfold view_at. intros H. apply nth_error_Some. intros X. rewrite X in H. discriminate H. Qed.
Lemma view_same vs i o : (i < length vs)%nat -> view_at (set_at vs i o) i = o.
Proof. intros H. unfold view_at. rewrite set_at_same by exact H. reflexivity. Qed.
Lemma view_other vs i j o : i <> j -> view_at (set_at vs i o) j = view_at vs j.
Proof. intros H. unfold view_at. rewrite set_at_other by exact H. reflexivity. Qed.
Lemma view_app vs o i : view_at (vs ++ [o]) i = if (i =? length vs)%nat then o else view_at vs i.
Proof.
  unfold view_at. destruct (Nat.eqb_spec i (length vs)) as [->|N]; [rewrite nth_error_app2, Nat.sub_diag by lia; reflexivity|].
  destruct (Nat.lt_ge_cases i (length vs)); [rewrite nth_error_app1 by lia; reflexivity|].
  rewrite nth_error_app2 by lia. replace (nth_error vs i) with (@None (option view)) by (symmetry; apply nth_error_None; lia).
  destruct (i - length vs)%nat as [|k] eqn:E; [lia|]. destruct k; reflexivity.
Qed.

(* Reading does not depend on whether there is something to save. *)
Lemma read_loop_dirty e f b d : forall fuel p cb ca um ai cs n, read_loop e f (set_bdirty b d) p cb ca um ai cs n fuel = read_loop e f b p cb ca um ai cs n fuel.
Proof.
  induction fuel as [|fuel IH]; intros p cb ca um ai cs n; [reflexivity|]. cbn [read_loop].
  change (big_block_eof (set_bdirty b d) p) with (big_block_eof b p). change (next_chunk (set_bdirty b d) p cs n) with (next_chunk b p cs n).
  change (b_base (set_bdirty b d)) with (b_base b). change (felsize e (set_bdirty b d)) with (felsize e b). change (b_nmemb (set_bdirty b d)) with (b_nmemb b).
  destruct (negb (0 <? n)); [reflexivity|]. destruct (big_block_eof b p) as [[|]| |]; try reflexivity. cbn [bind].
  destruct (next_chunk b p cs n) as [c| |]; try reflexivity. cbn [bind]. destruct (c =? 0); [reflexivity|].
  destruct (fopen_r f (data_path (b_base b) (p_fileid p))) as [oc|]; [|reflexivity]. destruct (_ <? 0); [reflexivity|].
  match goal with |- bind ?m _ = _ => destruct m as [cb1| |] end; try reflexivity. cbn [bind]. destruct (negb _); [reflexivity|].
  match goal with |- bind ?m _ = _ => destruct m as [[[[[rc um1] ai1] cb2] ii]| |] end; try reflexivity. cbn [bind]. destruct (negb (rc =? 0)); [reflexivity|].
  change (big_block_seek_rel (set_bdirty b d) p c) with (big_block_seek_rel b p c).
  destruct (big_block_seek_rel b p c) as [[rc2 p1]| |]; try reflexivity. cbn [bind]. destruct (negb (rc2 =? 0)); [reflexivity|]. apply IH.
Qed.
Lemma read_dirty e f b d p a um : big_block_read e f (set_bdirty b d) p a um = big_block_read e f b p a um.
Proof.
  unfold big_block_read. change (felsize e (set_bdirty b d)) with (felsize e b). change (chunk_rows e (set_bdirty b d)) with (chunk_rows e b).
  change (b_dtype (set_bdirty b d)) with (b_dtype b). change (b_nmemb (set_bdirty b d)) with (b_nmemb b). change (row_nmemb (set_bdirty b d)) with (row_nmemb b).
  change (b_foffset (set_bdirty b d)) with (b_foffset b). change (b_size (set_bdirty b d)) with (b_size b).
  destruct (2 ^ 31 <=? Z.abs (felsize e b)); [reflexivity|]. destruct (felsize e b =? 0); [reflexivity|].
  match goal with |- bind ?m _ = _ => destruct m as [ca| |] end; try reflexivity. cbn [bind].
  match goal with |- bind ?m _ = _ => destruct m as [o| |] end; try reflexivity. cbn [bind].
  destruct (b_size b <? _); [reflexivity|]. apply read_loop_dirty.
Qed.

Section Columns.
Variables (me : endian) (e : nat -> env) (junk : nat -> nat -> nat -> byte) (nbase : nat -> Z) (base dt : bytes) (nmemb : Z).
Let w := itemsize me dt * nmemb.
Hypothesis Hme : forall i, e_me (e i) = me.
Hypothesis Hbn : block_name base.
Hypothesis Hnb : nul_free base.
Hypothesis Hty : header_type dt.
Hypothesis Hnm : 0 < nmemb < 2 ^ 31.
Hypothesis Hwc : forall i, w <= e_chunk (e i).
Hypothesis Hw31 : w < 2 ^ 31.
Notation inv i := (hinv (e i) base dt nmemb w).

(* The header on disk is that of some handle that knows all files. *)
Definition on_disk (t : table) (hd : bool) (f : fs) : Prop :=
  bare base f /\ (forall k, (length (t_sizes t) <= k)%nat -> t_sum t k = 0) /\
  exists v ts, inv 0%nat (resum t ts) f v /\ b_dirty v = false /\ (hd = true -> counts t (length (t_sizes t)) v).

(* The attributes are those of a map. *)
Definition attrs_ok (b : block) : Prop := exists m, as_ok me (b_attrset b) m /\ Forall (fun x => nul_free (av_dtype (snd x))) m.
Lemma transferable_attrs b : transferable me b -> attrs_ok b.
Proof.
  intros (_ & ra & a & os & s & d & rcs & A1 & A2 & A3 & A4 & A5).
  destruct (run_spec ra me os (attrset_create a) [] no_attrs (create_ok me a)) as (s' & m & E & OK & HM); auto.
  rewrite E in A4. injection A4 as _ <-. exists m. split; [rewrite A5; apply as_ok_dirty; exact OK|].
  apply Forall_forall. intros x Hx. apply (aspecs_nul me os no_attrs A2) with (k := fst x); [discriminate|]. rewrite <- HM. apply sorted_assoc; auto. apply OK.
Qed.

Record col_ok (t : table) (i : nat) (v : view) (b : block) : Prop := {
  co_base : b_base b = base;
  co_dt : b_dtype b = dt;
  co_nm : b_nmemb b = nmemb;
  co_wb : wblock (e i) b (v_files v) w;
  co_send : attrs_ok b;
  co_clean : as_dirty (b_attrset b) = false;
  co_saved : b_dirty b = v_unsaved v;
  co_sums : v_sums v = true -> counts t (length (v_files v)) b;
  co_files : exists gs, t_sizes t = v_files v ++ gs;
  co_all : v_unsaved v = true -> v_files v = t_sizes t
}.
Record pinv (t : table) (vs : list (option view)) (hd : bool) (f : fs) (cs : list column) : Prop := {
  pi_len : length cs = length vs;
  pi_col : forall i v, view_at vs i = Some v -> exists b, nth_error cs i = Some (Some b) /\ col_ok t i v b;
  pi_disk : on_disk t hd f
}.

(* What another Column does leaves at least this of a view. *)
Definition rest (t t' : table) (u v : view) : Prop :=
  v_files v = v_files u /\ v_unsaved v = v_unsaved u /\ (v_sums v = true -> v_sums u = true /\ forall k, t_sum t' k = t_sum t k).
Lemma rest_same t t' v : (forall k, t_sum t' k = t_sum t k) -> rest t t' v v.
Proof. intros H. repeat split; auto. Qed.
Lemma col_more t t' gs j u v b : t_sizes t' = t_sizes t ++ gs -> gs = [] \/ v_unsaved u = false -> rest t t' u v -> col_ok t j u b -> col_ok t' j v b.
Proof.
  intros E H (R1 & R2 & R3) []. constructor; rewrite ?R1, ?R2; auto.
  - intros S. destruct (R3 S) as [S' Hs]. intros k Hk. rewrite Hs. apply co_sums0; auto.
  - destruct co_files0 as (g & G). exists (g ++ gs). rewrite E, G, app_assoc. reflexivity.
  - intros U. destruct H as [->|H]; [|congruence]. rewrite E, app_nil_r. auto.
Qed.
Lemma pinv_put t t' gs vs vs1 hd hd' f f' cs i ov oc : pinv t vs hd f cs -> (i < length vs)%nat -> t_sizes t' = t_sizes t ++ gs ->
  gs = [] \/ (forall j v, j <> i -> view_at vs j = Some v -> v_unsaved v = false) -> on_disk t' hd' f' ->
  length vs1 = length vs -> (forall j v, j <> i -> view_at vs1 j = Some v -> exists u, view_at vs j = Some u /\ rest t t' u v) ->
  (forall v, ov = Some v -> exists b, oc = Some b /\ col_ok t' i v b) -> pinv t' (set_at vs1 i ov) hd' f' (set_at cs i oc).
Proof.
  intros [L C _] Hi E G D L1 Re N. constructor; [rewrite !set_at_length, L1; exact L| |exact D].
  intros j v Hv. destruct (Nat.eq_dec i j) as [<-|Hn].
  - rewrite view_same in Hv by (rewrite L1; exact Hi). destruct (N v Hv) as (b & -> & K). exists b. split; [apply set_at_same; lia|exact K].
  - rewrite view_other in Hv by exact Hn. destruct (Re j v (not_eq_sym Hn) Hv) as (u & Hu & R). destruct (C j u Hu) as (b & Hb & K). exists b. rewrite set_at_other by exact Hn. split; [exact Hb|].
    eapply col_more; [exact E| |exact R|exact K]. destruct G as [G|G]; [left; exact G|right; eapply G; eauto].
Qed.
Lemma rest_all (t t' : table) (vs : list (option view)) (i : nat) : (forall k, t_sum t' k = t_sum t k) ->
  forall j v, j <> i -> view_at vs j = Some v -> exists u, view_at vs j = Some u /\ rest t t' u v.
Proof. intros H j v _ Hv. exists v. split; [exact Hv|apply rest_same; exact H]. Qed.
Lemma rest_outdated (t t' : table) (vs : list (option view)) (i : nat) :
  forall j v, j <> i -> view_at (map outdate vs) j = Some v -> exists u, view_at vs j = Some u /\ rest t t' u v.
Proof.
  intros j v _. unfold view_at. rewrite nth_error_map. destruct (nth_error vs j) as [[u|]|]; cbn [option_map outdate]; intros H; try discriminate H.
  injection H as <-. exists u. split; [reflexivity|]. repeat split; auto; discriminate.
Qed.
Lemma pinv_add t vs hd f cs ov oc : pinv t vs hd f cs -> (forall v, ov = Some v -> exists b, oc = Some b /\ col_ok t (length cs) v b) ->
  pinv t (vs ++ [ov]) hd f (cs ++ [oc]).
Proof.
  intros [L C D] N. constructor; [rewrite !app_length, L; reflexivity| |exact D].
  intros j v Hv. rewrite view_app in Hv. destruct (Nat.eqb_spec j (length vs)) as [->|Hn].
  - destruct (N v Hv) as (b & -> & K). rewrite L in K. exists b. rewrite nth_error_app2, L, Nat.sub_diag by lia. split; [reflexivity|exact K].
  - destruct (C j v Hv) as (b & Hb & K). exists b. split; [|exact K]. rewrite nth_error_app1; [exact Hb|]. apply view_lt in Hv. lia.
Qed.

Lemma inv_env i j t f v : bare base f -> inv i t f v -> inv j t f v.
Proof. intros B I. apply (hinv_env me base dt nmemb (e i) (e j) t f v); auto. Qed.

(* A Column that knows all files. *)
Lemma cur_inv t hd f i v b : on_disk t hd f -> col_ok t i v b -> v_files v = t_sizes t -> exists ts, inv i (resum t ts) f (set_bdirty b true).
Proof.
  intros (B & _ & u & ts & Iu & _) [] E. rewrite E in co_wb0.
  destruct (hinv_other (e i) base dt nmemb w (resum t ts) f u (set_bdirty b true) (inv_env 0 i _ _ _ B Iu)) as (ts' & I); auto.
  - apply wb_dirty. exact co_wb0.
  - exists ts'. exact I.
Qed.

(* A Column that knows the first files only. *)
Lemma cut_home s gs r : Forall (fun z => 0 <= z) (s ++ gs) -> r < zsum s -> home (s ++ gs) r = home s r.
Proof.
  intros H Hr. apply Forall_app in H. destruct H as [H _].
  destruct (Z_lt_dec r 0); [|apply home_app_l; auto; lia].
  destruct (home (s ++ gs) r) as [[i q]|] eqn:E1; [exfalso|destruct (home s r) as [[i q]|] eqn:E2; [exfalso|reflexivity]].
  - destruct s as [|x s]; [destruct gs; cbn in E1|]; cbn [app home] in E1; replace (r <? 0) with true in E1 by lia; discriminate E1.
  - destruct s as [|x s]; cbn [home] in E2; [discriminate E2|]. replace (r <? 0) with true in E2 by lia; discriminate E2.
Qed.
Lemma cut_stored f s gs r : Forall (fun z => 0 <= z) (s ++ gs) -> r < zsum s -> stored_row f base (s ++ gs) w r = stored_row f base s w r.
Proof. intros H Hr. unfold stored_row. rewrite cut_home by auto. reflexivity. Qed.
Lemma seen_inv t hd f i v b : on_disk t hd f -> col_ok t i v b -> exists ts, inv i (resum (seen t (v_files v)) ts) f (set_bdirty b true).
Proof.
  intros (B & _ & u & ts & Iu & _) []. destruct co_files0 as (gs & E). set (s := v_files v) in *.
  apply (inv_env 0 i _ _ _ B) in Iu.
  pose proof (wb_layout _ _ _ _ (hv_wb _ _ _ _ _ _ _ _ Iu)) as HL. cbn [resum t_sizes] in HL. pose proof (hl_nonneg _ _ HL) as Hn. rewrite E in Hn.
  assert (Hs : Forall (fun z => 0 <= z) s) by (apply Forall_app in Hn; tauto).
  exists (fun k => if (k <? length s)%nat then nth k (b_fchecksum b) 0 else 0).
  destruct Iu. cbn [resum seen t_sizes t_row t_sum] in *. rewrite E in *. constructor; cbn [resum seen t_sizes t_row t_sum set_bdirty b_base b_dtype b_nmemb b_dirty b_attrset b_fchecksum]; auto.
  - apply (wb_dirty _ _ _ _ true co_wb0).
  - rewrite zlen_app in hv_N. pose proof (zlen_nonneg gs). lia.
  - intros k Hk. apply hv_files. rewrite app_length. lia.
  - intros k c Hk Hc. specialize (hv_whole k c). rewrite app_length in hv_whole. rewrite app_nth1 in hv_whole by exact Hk. apply hv_whole; [lia|exact Hc].
  - intros r x Hr. destruct (r <? zsum s) eqn:Er; [|discriminate Hr]. rewrite <- (cut_stored f s gs) by (auto; lia). auto.
  - intros r x Hr. destruct (stored_home _ _ _ _ _ _ Hr) as (k & q & Hk). pose proof (home_range _ _ _ _ Hs Hk) as Rr.
    assert (Er : (r <? zsum s) = true) by lia. pose proof (proj2 Rr) as Rr2. rewrite <- (cut_stored f s gs) in Hr by auto.
    destruct (hv_zero r x Hr) as [X|(X1 & X2 & r2 & X3 & X4 & X5)].
    + left. cbn [resum seen t_row]. rewrite Er. exact X.
    + right. cbn [resum seen t_row t_sizes] in *. rewrite Er. split; [exact X1|]. split; [exact X2|]. exists r2. split; [exact X3|].
      rewrite E in X4. destruct X4 as (k' & q1 & q2 & A1 & A2). rewrite cut_home in A1 by auto.
      assert (R2 : r2 < zsum s).
      { destruct (Z_lt_dec r2 (zsum s)); [assumption|exfalso]. rewrite home_app_r in A2 by (auto; lia).
        destruct (home gs (r2 - zsum s)) as [[k2 q3]|]; [|discriminate A2]. apply home_lt in A1. destruct A1 as (A1 & _). injection A2 as A2 _. lia. }
      rewrite cut_home in A2 by auto. split; [exists k', q1, q2; auto|]. replace (r2 <? zsum s) with true by lia. exact X5.
  - intros X. discriminate X.
  - intros k Hk. replace (k <? length s)%nat with true by lia. pose proof (wb_layout _ _ _ _ co_wb0) as HL2. pose proof (hl_cksr _ _ HL2) as R. rewrite Forall_forall in R.
    symmetry. apply Z.mod_small. apply R. apply nth_In. rewrite (hl_cks _ _ HL2). lia.
  - intros k Hk. replace (k <? length s)%nat with false by lia. reflexivity.
Qed.

(* ------------------------------------------------------------------ steps *)
Lemma flush_col t hd f i v b : on_disk t hd f -> col_ok t i v b -> exists f', big_block_flush (e i) f b = Ret (0, f', set_bdirty b false) /\
  on_disk t (if v_unsaved v then v_sums v else hd) f' /\ col_ok t i (mkView (v_files v) false (v_sums v)) (set_bdirty b false).
Proof.
  intros D C. assert (C' : col_ok t i (mkView (v_files v) false (v_sums v)) (set_bdirty b false)).
  { destruct C. constructor; cbn [v_files v_unsaved v_sums]; auto; try discriminate; apply wb_dirty; exact co_wb0. }
  pose proof (co_saved _ _ _ _ C) as Db. destruct (v_unsaved v) eqn:U.
  - pose proof (co_all _ _ _ _ C U) as E. destruct (cur_inv t hd f i v b D C E) as (ts & I).
    assert (Eb : set_bdirty b true = b) by (destruct b; cbn in *; subst; reflexivity). rewrite Eb in I.
    destruct (hist_flush (e i) base dt nmemb w _ f b I) as (f' & F & I' & _ & _).
    destruct (flush_table (e i) f b (t_sizes t)) as (f1 & F' & _ & _ & O); [rewrite <- E; apply C|rewrite (co_base _ _ _ _ C); apply I|exact Db|apply C|].
    rewrite F in F'. injection F' as <-. rewrite (co_base _ _ _ _ C) in O.
    exists f'. split; [exact F|]. split; [|exact C'].
    assert (B : bare base f').
    { destruct D as ([B1 B2] & _). split; rewrite ?O; auto; intros X; symmetry in X; revert X; first [apply header_not_attr1|apply header_not_attr2]. }
    split; [exact B|]. split; [apply D|]. exists (set_bdirty b false), ts. split; [apply (inv_env i 0); [exact B|exact I']|]. split; [reflexivity|].
    intros S. rewrite <- E. exact (co_sums _ _ _ _ C S).
  - exists f. rewrite (set_bdirty_same b Db) in *. split; [apply flush_clean; [exact Db|apply C]|]. auto.
Qed.
Lemma open_col t hd f i : on_disk t hd f -> exists b, big_block_open (e i) f base = Ret (Some b) /\ col_ok t i (mkView (t_sizes t) false hd) b.
Proof.
  intros (B & _ & u & ts & Iu & Du & Hu).
  destruct (open_ready 1 me (fun _ _ _ _ => x00) (fun _ _ => 0) e base dt nmemb w ltac:(lia) (fun i _ => Hme i) Hbn Hty Hnm (fun i _ => Hwc i) Hnb t ts f u (e i) (Hme i) Iu Du B)
    as (b & E & I & T & Db & _).
  exists b. split; [exact E|]. constructor; cbn [v_files v_unsaved v_sums]; auto; try apply I; try discriminate; [apply transferable_attrs; exact T| |exists []; rewrite app_nil_r; reflexivity].
  intros S k Hk. rewrite <- (Hu S k Hk), (hv_sum _ _ _ _ _ _ _ _ I k Hk), (hv_sum _ _ _ _ _ _ _ _ Iu k Hk). reflexivity.
Qed.
Lemma col_fits t i v b : col_ok t i v b -> handle_fits b.
Proof.
  intros []. pose proof (wb_layout _ _ _ _ co_wb0) as HL. destruct HL.
  destruct Hty as (_ & T2 & T3). destruct Hbn as (_ & Bn & _). unfold zlen in *. pose proof (zsum_nonneg _ hl_nonneg).
  constructor.
  - rewrite co_dt0. split; [|lia]. intros X. rewrite Forall_forall in T3. apply T3 in X. destruct X. contradiction.
  - rewrite co_nm0. lia.
  - rewrite co_base0. auto.
  - rewrite hl_size. lia.
  - rewrite hl_Nfile. unfold zlen. lia.
  - rewrite hl_fsize, hl_Nfile. split; [right; unfold zlen; rewrite app_length; cbn [length]; lia|]. apply Forall_app. split; [|repeat constructor; lia].
    apply Forall_forall. intros x Hx. pose proof (in_le_zsum _ _ hl_nonneg Hx). rewrite Forall_forall in hl_nonneg. specialize (hl_nonneg _ Hx). lia.
  - rewrite hl_foffset, hl_Nfile. split; [right; unfold zlen; rewrite map_length, seq_length; lia|]. apply Forall_forall. intros x Hx. apply in_map_iff in Hx. destruct Hx as (k & <- & Hk). apply in_seq in Hk.
    pose proof (first_row_nonneg _ k hl_nonneg). pose proof (first_row_le _ k hl_nonneg). lia.
  - rewrite hl_Nfile. split; [right; unfold zlen; rewrite hl_cks; lia|exact hl_cksr].
Qed.
(* A pickled and unpickled Column. *)
Lemma pickle_col t i j v b : col_ok t i v b -> exists img b', block_pack (junk i) (e_me (e i)) b = Ret img /\
  block_unpack (e_me (e j)) (nbase j) img = Ret b' /\ col_ok t j v b'.
Proof.
  intros C. destruct (co_send _ _ _ _ C) as (m & OK & Hm). rewrite !Hme.
  assert (Hent : forall x, In x (as_list (b_attrset b)) -> exists y, In y m /\ rep1 me (b_attrset b) x y).
  { intros x Hx. destruct (In_nth_error _ _ Hx) as (k & Hk). destruct (F2_nth _ _ _ _ _ (ok_rep _ _ _ OK) Hk) as (y & Hy & R). exists y. split; auto. eapply nth_error_In; eauto. }
  destruct (pack_spec (junk i) me (nbase j) b m (col_fits _ _ _ _ C) OK) as (img & b' & P & U & S & OK' & _).
  { rewrite Forall_forall in *. intros x Hx. destruct (Hent x Hx) as (y & Hy & R). rewrite (r_dtype _ _ _ _ R). auto. }
  { rewrite Forall_forall. intros x Hx. destruct (Hent x Hx) as (y & Hy & R). destruct R. destruct r_dt as [_ Hw].
    rewrite r_nmemb. rewrite r_len in r_max. clear - r_n0 r_max Hw. change (2 ^ 31) with 2147483648 in *. nia. }
  exists img, b'. split; [exact P|]. split; [exact U|]. destruct C. constructor; auto.
  - rewrite (sh_base _ _ S). exact co_base0.
  - rewrite (sh_dtype _ _ S). exact co_dt0.
  - rewrite (sh_nmemb _ _ S). exact co_nm0.
  - eapply same_wblock; [|exact S|exact co_wb0]. rewrite !Hme. reflexivity.
  - exists m. auto.
  - rewrite (sh_adirty _ _ S). exact co_clean0.
  - rewrite (sh_dirty _ _ S). exact co_saved0.
  - intros X k Hk. rewrite (sh_fchecksum _ _ S); [apply co_sums0; auto|]. intros N. pose proof (hl_cks _ _ (wb_layout _ _ _ _ co_wb0)) as L. rewrite N in L. cbn [length] in L. lia.
Qed.

Lemma read_col t hd f i v b o a um sizes : on_disk t hd f -> col_ok t i v b -> hop_ok me dt nmemb sizes (HRead o a um) ->
  exists x, hstep (e i) (f, b) (HRead o a um) = Ret (x, (f, b)) /\ hspec me dt nmemb (seen t (v_files v)) (HRead o a um) x (seen t (v_files v)).
Proof.
  intros D C Ho. destruct (seen_inv t hd f i v b D C) as (ts & I).
  destruct (hist_read (e i) base dt nmemb w (proj2 Hnm) (Hwc i) Hw31 _ f _ o a um I) as (x & f' & b' & t' & E & S & _); [rewrite Hme; exact Ho|].
  rewrite Hme in S. destruct (hread_state _ _ _ _ _ _ _ _ _ E) as [-> ->].
  exists x. split.
  - cbn [hstep] in E |- *. change (big_block_seek (set_bdirty b true)) with (big_block_seek b) in E.
    destruct (big_block_seek b (mkPtr 0 0 0) o) as [[rc p]| |]; try discriminate E. cbn [bind] in *.
    destruct (negb (rc =? 0)); [injection E as <-; reflexivity|].
    rewrite read_dirty in E.
    destruct (big_block_read (e i) f b p a um) as [[[rc2 p2] um2]| |]; try discriminate E. cbn [bind] in *. injection E as <-. reflexivity.
  - inversion S; subst. apply sp_read; assumption.
Qed.

Lemma col_unsaved t t' i v b d cks : col_ok t i v b -> v_files v = t_sizes t -> t_sizes t' = t_sizes t -> wblock (e i) (set_checksums (set_bdirty b d) cks) (t_sizes t) w ->
  (v_sums v = true -> counts t' (length (t_sizes t)) (set_checksums (set_bdirty b d) cks)) ->
  col_ok t' i (mkView (t_sizes t) d (v_sums v)) (set_checksums (set_bdirty b d) cks).
Proof. intros [] E E' HW Hd. constructor; cbn [v_files v_unsaved v_sums]; auto. exists []. rewrite app_nil_r. exact E'. Qed.
Lemma set_cks_same b d : set_checksums (set_bdirty b d) (b_fchecksum b) = set_bdirty b d.
Proof. destruct b; reflexivity. Qed.

Lemma write_col t hd f i v b o a um : on_disk t hd f -> col_ok t i v b -> v_files v = t_sizes t -> hop_ok me dt nmemb (t_sizes t) (HWrite o a um) ->
  exists x f' b' t', hstep (e i) (f, b) (HWrite o a um) = Ret (x, (f', b')) /\ hspec me dt nmemb t (HWrite o a um) x t' /\
    t_sizes t' = t_sizes t /\
    if zsum (t_sizes t) <? o then t' = t /\ f' = f /\ b' = b else on_disk t' false f' /\ col_ok t' i (mkView (t_sizes t) true (v_sums v)) b'.
Proof.
  intros D C EV (Ho & Hsz & Ha & Hda & Hconv & (vs & outs & Hsrc) & Hdis).
  destruct (cur_inv t hd f i v b D C EV) as (ts & I).
  pose proof (co_wb _ _ _ _ C) as HW. rewrite EV in HW. pose proof (wb_layout _ _ _ _ HW) as HL.
  pose proof (wb_nmemb _ _ _ _ HW) as Hnm0. pose proof (wb_wpos _ _ _ _ HW) as Hwp.
  pose proof (co_base _ _ _ _ C) as Eb. pose proof (co_dt _ _ _ _ C) as Ed. pose proof (co_nm _ _ _ _ C) as En.
  assert (Hsz0 : 0 < a_size a) by (rewrite (ao_size _ Ha); apply zprod_pos; apply Ha).
  assert (Hn0 : 0 <= nrows nmemb a < 2 ^ 63) by (unfold nrows; split; [apply Z.div_pos; lia|nia]).
  pose proof (hl_small _ _ HL) as Hsm.
  assert (Hk : col_ok t i (mkView (t_sizes t) true (v_sums v)) (set_bdirty b true)).
  { rewrite <- set_cks_same. apply (col_unsaved t t); auto; [rewrite set_cks_same; apply wb_dirty; exact HW|]. rewrite set_cks_same. intros S k Hk. rewrite <- EV in Hk. apply (co_sums _ _ _ _ C); auto. }
  assert (D0 : on_disk t false f).
  { destruct D as (B & U & u & tu & Iu & Du & _). split; [exact B|]. split; [exact U|]. exists u, tu. split; [exact Iu|]. split; [exact Du|discriminate]. }
  cbn [hstep].
  destruct (Z_lt_dec (t_size t) o) as [Hfar|Hnear].
  { destruct (seek_spec b (t_sizes t) (mkPtr 0 0 0) o HL ltac:(lia)) as (_ & _ & H). rewrite H by (unfold t_size in Hfar; lia).
    cbn [bind]. change (negb (-1 =? 0)) with true. cbv iota.
    eexists _, f, b, t. split; [reflexivity|]. split; [apply sp_write_range; lia|]. replace (zsum (t_sizes t) <? o) with true by (unfold t_size in Hfar; lia). auto. }
  destruct (seek_spec b (t_sizes t) (mkPtr 0 0 0) o HL ltac:(lia)) as (H & _ & _). destruct H as (p & -> & Hp); [unfold t_size in Hnear; lia|].
  cbn [bind]. change (negb (0 =? 0)) with false. cbv iota.
  destruct (Z_lt_dec (t_size t) (o + nrows nmemb a)) as [Hout|Hin].
  { rewrite (write_range (e i) (t_sizes t) w a f b p um o); auto; try lia; [|rewrite En; exact Hout|rewrite En; unfold nrows in *; lia].
    cbn [bind]. eexists _, f, (set_bdirty b true), t. split; [reflexivity|]. split; [apply sp_write_range; lia|]. replace (zsum (t_sizes t) <? o) with false by (unfold t_size in Hnear; lia). auto. }
  pose proof Hsrc as (Lv & Hh & Hf2). rewrite <- Ed in Hconv, Hf2. rewrite <- (Hme i) in Hda, Hconv, Hf2, Hh, Hdis.
  assert (Hn1 : nrows nmemb a = a_size a / b_nmemb b) by (rewrite En; reflexivity).
  assert (Lv1 : zlen vs = nrows nmemb a * b_nmemb b) by (rewrite En; exact Lv).
  assert (Hdis1 : dt_native (e_me (e i)) (a_dtype a) = false -> elems_disjoint (elem_addr a) (itemsize (e_me (e i)) (a_dtype a)) 0 (zlen vs)) by (rewrite Lv; auto).
  assert (Hin1 : o + nrows nmemb a <= zsum (t_sizes t)) by (unfold t_size in *; lia).
  assert (Hfe1 : files_exist f (b_base b) (t_sizes t)) by (rewrite Eb; apply I).
  destruct (write_spec (e i) (t_sizes t) w a f b p um o vs outs (nrows nmemb a) HW (Hwc i) Hw31 Ha Hda Hconv Hn1 Lv1 Hh Hdis1 Hf2 Hp Hin1 Hfe1)
    as (f' & p' & um' & E & Efs & Hp' & Hsa).
  rewrite E. cbn [bind]. rewrite Hme in Hsa. rewrite En, Eb in *.
  set (rows := rows_of nmemb (nrows nmemb a) outs) in *.
  assert (Lo : length outs = length vs) by (symmetry; eapply Forall2_length; eauto).
  assert (Lr : zlen rows = nrows nmemb a) by (unfold zlen, rows; rewrite rows_of_length; lia).
  assert (Wr : Forall (fun v => length v = Z.to_nat w) rows).
  { pose proof (rows_elems_widths (e i) b (t_sizes t) w (nrows nmemb a) outs HW) as X. rewrite En in X. apply X.
    - lia.
    - unfold zlen in *. lia.
    - apply (converts_Forall (e_me (e i)) (a_dtype a) (b_dtype b) vs outs Hda (wb_dt _ _ _ _ HW)); [|exact Hf2].
      apply Forall_forall. intros u Hu. apply In_nth_error in Hu. destruct Hu as [j Hj].
      apply Hh in Hj. apply load_length in Hj. auto. }
  assert (HW' : wblock (e i) (set_checksums (set_bdirty b true) (add_sums (b_fchecksum b) (t_sizes t) o rows)) (t_sizes t) w).
  { assert (L' : has_layout (set_checksums (set_bdirty b true) (add_sums (b_fchecksum b) (t_sizes t) o rows)) (t_sizes t)).
    { apply layout_set_cks; [apply layout_set_dirty; auto| |].
      - rewrite WriteFacts.add_sums_length. apply HL.
      - apply add_sums_range. apply HL. }
    destruct HW. constructor; auto. }
  set (t' := with_rows t o rows).
  eexists _, f', _, t'. split; [reflexivity|]. split; [apply (sp_write _ _ _ t o a um um' vs outs); [lia|exact Hsrc|exact Hsa]|].
  split; [reflexivity|]. replace (zsum (t_sizes t) <? o) with false by (unfold t_size in Hnear; lia). split.
  - destruct D as (B & U & u & tu & Iu & Du & _). split; [|split].
    + apply (bare_frame base f); [exact B|]. intros q Hq. rewrite Efs. apply put_rows_frame_exact. intros r k j _ _. apply Hq. lia.
    + cbn [t' with_rows t_sizes t_sum]. intros k Hk'. rewrite bytes_into_out by auto. rewrite U by exact Hk'. reflexivity.
    + exists u, tu. split; [|split; [exact Du|discriminate]]. apply (hinv_rows (e 0%nat) base dt nmemb w (resum t tu) f f' u o rows Iu); [lia| |exact Wr|exact Efs].
      change (t_size (resum t tu)) with (t_size t). lia.
  - apply (col_unsaved t t'); auto. intros S k Hk'. cbn [t' with_rows t_sum set_checksums b_fchecksum]. apply add_sums_nth; [rewrite (hl_cks _ _ HL); lia|]. rewrite <- EV in Hk'. apply (co_sums _ _ _ _ C S k Hk').
Qed.

Lemma grow_col t hd f i v b gs : on_disk t hd f -> col_ok t i v b -> v_files v = t_sizes t -> hop_ok me dt nmemb (t_sizes t) (HGrow gs) ->
  let t' := mkTab (t_sizes t ++ gs) (t_row t) (t_sum t) in
  exists f' b', py_grow (e i) f b gs = Ret (0, f', b') /\ on_disk t' (v_sums v) f' /\ col_ok t' i (mkView (t_sizes t ++ gs) false (v_sums v)) b'.
Proof.
  intros D C EV (Hl & HN) t'. destruct (cur_inv t hd f i v b D C EV) as (ts & I).
  pose proof (co_wb _ _ _ _ C) as HW. rewrite EV in HW. pose proof (wb_layout _ _ _ _ HW) as HL. pose proof (co_base _ _ _ _ C) as Eb.
  destruct (grow_spec f b (t_sizes t) gs HL) as (f1 & b1 & E & L1 & E1 & E2 & E3 & E4 & E5 & E6 & Hd' & G & O); [rewrite Eb; apply I|exact Hl|].
  rewrite Eb in *.
  destruct (hist_grow (e i) base dt nmemb w _ f _ gs I (conj Hl HN)) as (x & f1' & b1' & t1 & Eh & Sp & I1 & _).
  assert (X : f1' = f1 /\ b1' = b1).
  { cbn [hstep] in Eh. change (big_block_grow f (set_bdirty b true) (zlen gs) gs) with (big_block_grow f b (zlen gs) gs) in Eh. rewrite E in Eh. cbn [bind] in Eh. injection Eh as _ <- <-. auto. }
  destruct X as [-> ->]. inversion Sp; subst. cbn [resum t_sizes t_row t_sum] in I1. change (hinv (e i) base dt nmemb w (resum t' ts) f1 b1) in I1.
  destruct (hist_flush (e i) base dt nmemb w _ f1 b1 I1) as (f2 & F & I2 & _ & _).
  destruct (flush_table (e i) f1 b1 (t_sizes t')) as (f2' & F' & _ & _ & O'); [apply I1|rewrite (hv_base _ _ _ _ _ _ _ _ I1); apply I1|exact E5|apply I1|].
  rewrite F in F'. injection F' as <-. rewrite (hv_base _ _ _ _ _ _ _ _ I1) in O'.
  assert (B1 : bare base f1).
  { apply (bare_frame base f); [apply D|]. intros q Hq. apply O. intros (j & Hj & ->). apply (Hq j); [|reflexivity]. pose proof (zlen_nonneg (t_sizes t)). lia. }
  assert (B2 : bare base f2).
  { destruct B1 as [X1 X2]. split; rewrite ?O'; auto; intros X; symmetry in X; revert X; first [apply header_not_attr1|apply header_not_attr2]. }
  assert (U' : forall k, (length (t_sizes t') <= k)%nat -> t_sum t' k = 0).
  { cbn [t' t_sizes t_sum]. intros k Hk. apply D. rewrite app_length in Hk. lia. }
  assert (Cn : v_sums v = true -> counts t' (length (t_sizes t ++ gs)) (set_bdirty b1 false)).
  { intros S k Hk. rewrite (hv_sum _ _ _ _ _ _ _ _ I2 k Hk). cbn [resum t' t_sum].
    destruct (Nat.lt_ge_cases k (length (t_sizes t))) as [Hk'|Hk'].
    - pose proof (hv_sum _ _ _ _ _ _ _ _ I k Hk') as X. cbn [resum t_sum set_bdirty b_fchecksum] in X. rewrite <- X. apply (co_sums _ _ _ _ C S). rewrite EV. exact Hk'.
    - pose proof (hv_unborn _ _ _ _ _ _ _ _ I k Hk') as X. cbn [resum t_sum] in X. rewrite X. destruct D as (_ & U & _). rewrite U by exact Hk'. reflexivity. }
  exists f2, (set_bdirty b1 false). split; [unfold py_grow; rewrite E; cbn [bind]; exact F|]. split.
  - split; [exact B2|]. split; [exact U'|]. exists (set_bdirty b1 false), ts. split; [apply (inv_env i 0); [exact B2|exact I2]|]. split; [reflexivity|exact Cn].
  - constructor; cbn [v_files v_unsaved v_sums]; try apply I2; auto; try discriminate.
    + destruct (co_send _ _ _ _ C) as (m & OK & Hm). exists m. cbn [set_bdirty b_attrset]. rewrite E4. auto.
    + exists []. rewrite app_nil_r. reflexivity.
Qed.

Lemma set_at_id {A} (cs : list A) i c : nth_error cs i = Some c -> set_at cs i c = cs.
Proof. revert i. induction cs as [|x l IH]; intros [|i] H; cbn [set_at nth_error] in *; try discriminate; [congruence|]. rewrite IH by exact H. reflexivity. Qed.
Lemma step_all t vs hd f cs op : pinv t vs hd f cs -> pop_ok me dt nmemb (t_sizes t) vs op ->
  exists x f' cs' t', pstep e junk nbase base (f, cs) op = Ret (x, (f', cs')) /\
    pspec me dt nmemb (mkP t vs hd) op x (mkP t' (views_after (t_sizes t) vs hd op) (header_after (t_sizes t) vs hd op)) /\ t_sizes t' = files_after (t_sizes t) op /\
    pinv t' (views_after (t_sizes t) vs hd op) (header_after (t_sizes t) vs hd op) f' cs'.
Proof.
  intros P. pose proof (pi_disk _ _ _ _ _ P) as D.
  assert (Z0 : t_sizes t = t_sizes t ++ []) by (rewrite app_nil_r; reflexivity).
  assert (Col : forall i, view_at vs i <> None -> exists v b, view_at vs i = Some v /\ (i < length vs)%nat /\ nth_error cs i = Some (Some b) /\ col_ok t i v b).
  { intros i H. destruct (view_at vs i) as [v|] eqn:E; [|contradiction]. destruct (pi_col _ _ _ _ _ P i v E) as (b & Hb & C). exists v, b. split; [reflexivity|]. split; [eapply view_lt; eauto|auto]. }
  destruct op as [i [o a um|o a um|gs| |]|i gs|i|i|]; cbn [pop_ok]; intros H.
  - destruct H as (Ho & v0 & Hv & Ev). destruct (Col i ltac:(congruence)) as (v & b & Hv' & Hi & Hb & C). rewrite Hv in Hv'. injection Hv' as <-.
    destruct (write_col t hd f i _ b o a um D C Ev Ho) as (x & f' & b' & t' & E & S & Es & K).
    exists x, f', (set_at cs i (Some b')), t'. split; [cbn [pstep]; rewrite Hb, E; reflexivity|]. split; [split; [reflexivity|]; split; [reflexivity|exact S]|]. split; [exact Es|].
    cbn [views_after header_after]. destruct (zsum (t_sizes t) <? o).
    + destruct K as (-> & -> & ->). rewrite (set_at_id cs i _ Hb). exact P.
    + destruct K as (D' & C'). unfold sums_at. rewrite Hv. apply (pinv_put t t' [] vs (map outdate vs) hd false f f' cs i); auto; [rewrite Es; exact Z0|apply map_length|apply rest_outdated|]. intros v E1. injection E1 as <-. eauto.
  - destruct H as (Ho & Hv). destruct (Col i Hv) as (v & b & Hv' & Hi & Hb & C).
    destruct (read_col t hd f i v b o a um _ D C Ho) as (x & E & S).
    exists x, f, (set_at cs i (Some b)), t. split; [cbn [pstep]; rewrite Hb, E; reflexivity|]. split; [split; [reflexivity|]; split; [reflexivity|]; split; [reflexivity|]; exists v; auto|]. split; [reflexivity|].
    cbn [views_after header_after]. rewrite (set_at_id cs i _ Hb). exact P.
  - contradiction.
  - destruct H as (_ & Hv). destruct (Col i Hv) as (v & b & Hv' & Hi & Hb & C).
    destruct (flush_col t hd f i v b D C) as (f' & E & D' & C').
    exists (0, None), f', (set_at cs i (Some (set_bdirty b false))), t. split; [cbn [pstep hstep]; rewrite Hb, E; reflexivity|].
    split; [split; [reflexivity|]; split; [reflexivity|]; split; reflexivity|]. split; [reflexivity|].
    cbn [views_after header_after]. unfold after_save. rewrite Hv'. apply (pinv_put t t [] vs vs hd _ f f' cs i); auto; [apply rest_all; auto|]. intros u E1. injection E1 as <-. eauto.
  - destruct H as (_ & Hv). destruct (Col i Hv) as (v & b & Hv' & Hi & Hb & C).
    destruct (flush_col t hd f i v b D C) as (f' & E & D' & C'). destruct (open_col t _ f' i D') as (b2 & E2 & C2).
    exists (0, None), f', (set_at cs i (Some b2)), t.
    split; [cbn [pstep hstep]; rewrite Hb; unfold big_block_close; rewrite E; cbn [bind]; rewrite (co_base _ _ _ _ C), E2; reflexivity|].
    split; [split; [reflexivity|]; split; [reflexivity|]; split; reflexivity|]. split; [reflexivity|].
    cbn [views_after header_after]. unfold after_save. rewrite Hv'. apply (pinv_put t t [] vs vs hd _ f f' cs i); auto; [apply rest_all; auto|]. intros u E1. injection E1 as <-. eauto.
  - destruct H as (Ho & (v0 & Hv & Ev) & Hs). destruct (Col i ltac:(congruence)) as (v & b & Hv' & Hi & Hb & C). rewrite Hv in Hv'. injection Hv' as <-.
    destruct (grow_col t hd f i _ b gs D C Ev Ho) as (f' & b' & E & D' & C').
    exists (0, None), f', (set_at cs i (Some b')), (mkTab (t_sizes t ++ gs) (t_row t) (t_sum t)).
    split; [cbn [pstep]; rewrite Hb, E; reflexivity|]. split; [split; [reflexivity|]; split; [reflexivity|]; split; reflexivity|]. split; [reflexivity|].
    cbn [views_after header_after]. unfold sums_at. rewrite Hv. apply (pinv_put t _ gs vs vs hd _ f f' cs i); auto; [apply rest_all; auto|]. intros u E1. injection E1 as <-. eauto.
  - destruct (Col i H) as (v & b & Hv' & Hi & Hb & C).
    destruct (pickle_col t i (length cs) v b C) as (img & b' & E1 & E2 & C').
    exists (0, None), f, (cs ++ [Some b']), t.
    split; [cbn [pstep]; rewrite Hb; cbn [py_getstate]; rewrite E1; cbn [bind py_setstate]; rewrite E2; reflexivity|].
    split; [split; [reflexivity|]; split; [reflexivity|]; split; reflexivity|]. split; [reflexivity|].
    cbn [views_after header_after]. apply pinv_add; [exact P|]. intros u Eu. rewrite Hv' in Eu. injection Eu as <-. eauto.
  - destruct (Col i H) as (v & b & Hv' & Hi & Hb & C).
    destruct (flush_col t hd f i v b D C) as (f' & E & D' & C').
    exists (0, None), f', (set_at cs i None), t.
    split; [cbn [pstep]; rewrite Hb; cbn [py_dealloc]; unfold big_block_close; rewrite E; reflexivity|].
    split; [split; [reflexivity|]; split; [reflexivity|]; split; reflexivity|]. split; [reflexivity|].
    cbn [views_after header_after]. unfold after_save. rewrite Hv'. apply (pinv_put t t [] vs vs hd _ f f' cs i); auto; [apply rest_all; auto|]. intros u Eu. discriminate Eu.
  - destruct (open_col t hd f (length cs) D) as (b2 & E2 & C2).
    exists (0, None), f, (cs ++ [Some b2]), t. split; [cbn [pstep]; rewrite E2; reflexivity|].
    split; [split; [reflexivity|]; split; [reflexivity|]; split; reflexivity|]. split; [reflexivity|].
    cbn [views_after header_after]. apply pinv_add; [exact P|]. intros u Eu. injection Eu as <-. eauto.
Qed.

Lemma run_cols : forall os t vs hd f cs, pinv t vs hd f cs -> pops_ok me dt nmemb (t_sizes t) vs hd os ->
  exists xs f' cs' st', prun e junk nbase base (f, cs) os = Ret (xs, (f', cs')) /\ pspecs me dt nmemb (mkP t vs hd) os xs st' /\
    pinv (p_table st') (p_views st') (p_sums st') f' cs'.
Proof.
  induction os as [|o os IH]; intros t vs hd f cs P H.
  - exists [], f, cs, (mkP t vs hd). split; [reflexivity|]. split; [constructor|exact P].
  - destruct H as [Ho Hos]. destruct (step_all t vs hd f cs o P Ho) as (x & f1 & cs1 & t1 & E & S & Es & P1). rewrite <- Es in Hos.
    destruct (IH t1 _ _ f1 cs1 P1 Hos) as (xs & f2 & cs2 & st & E2 & S2 & P2).
    exists (x :: xs), f2, cs2, st. split; [cbn [prun]; rewrite E; cbn [bind]; rewrite E2; reflexivity|]. split; [econstructor; eauto|exact P2].
Qed.

Lemma pinv_hold t vs hd f cs : pinv t vs hd f cs -> views_hold (mkP t vs hd) cs.
Proof.
  intros [L C _]. split; [exact L|]. intros i v Hv. destruct (C i v Hv) as (b & Hb & []). exists b. pose proof (wb_layout _ _ _ _ co_wb0) as HL.
  split; [exact Hb|]. split; [exact HL|]. split; [apply HL|]. split; [exact co_saved0|exact co_sums0].
Qed.
End Columns.

Theorem columns_run me e junk nbase f base d nmemb sizes os : let dt := dtype_normalize me d in
  (forall i, e_me (e i) = me) -> (forall i, itemsize me dt * nmemb <= e_chunk (e i)) -> nul_free base -> nul_free d ->
  new_block (e 0%nat) f base d nmemb sizes -> history_legal me dt nmemb sizes os ->
  exists f1 b1 xs f' cs' st', big_block_create (e 0%nat) f base (Some d) nmemb (zlen sizes) sizes = Ret (f1, Some b1) /\
    prun e junk nbase base (f1, [Some b1]) os = Ret (xs, (f', cs')) /\ pspecs me dt nmemb (pstart sizes) os xs st' /\ views_hold st' cs'.
Proof.
  intros dt Hme Hwc Hnb Hd [] Hos. rewrite Hme in nb_type, nb_dt, nb_chunk, nb_width. fold dt in nb_type, nb_dt, nb_chunk, nb_width.
  destruct (hist_create (e 0%nat) f base d nmemb sizes) as (f1 & b1 & E & I & Hs); auto; [lia|rewrite Hme; exact nb_dt|].
  rewrite Hme in I. fold dt in I.
  destruct (create_spec (e 0%nat) f base d nmemb sizes nb_name nb_dir nb_layout) as (f1' & b1' & E' & Lay & Edt & Enm & Eb & Hok1 & Hdi & Hadi & Hck & Hd' & Hh & Ha2 & Hdata & O).
  rewrite E in E'. injection E' as <- <-. rewrite Hme in Hok1.
  assert (Ba : bare base f1).
  { split; [|right; exact Ha2]. rewrite O; auto. intros [X|[X|(j & Hj & X)]]; [symmetry in X; revert X; apply header_not_attr1|revert X; apply attr1_not_attr2|symmetry in X; revert X; apply data_not_attr1; lia]. }
  assert (P : pinv me e base dt nmemb (new_table sizes) (p_views (pstart sizes)) true f1 [Some b1]).
  { constructor; [reflexivity| |].
    - intros [|i] v Hv; [|unfold view_at in Hv; cbn [pstart p_views nth_error] in Hv; destruct i; discriminate Hv]. injection Hv as <-. exists b1. split; [reflexivity|].
      constructor; cbn [v_files v_unsaved v_sums]; auto; try apply I; try discriminate; [exists []; auto|intros _ k Hk; apply (hv_sum _ _ _ _ _ _ _ _ I k Hk)|]. exists []. rewrite app_nil_r. reflexivity.
    - split; [exact Ba|]. split; [reflexivity|]. exists b1, (fun _ => 0). split; [exact I|]. split; [exact Hdi|]. intros _ k Hk. apply (hv_sum _ _ _ _ _ _ _ _ I k Hk). }
  destruct (run_cols me e junk nbase base dt nmemb Hme nb_name Hnb nb_type nb_nmemb Hwc nb_width os (new_table sizes) _ true f1 [Some b1] P Hos) as (xs & f' & cs' & st' & E2 & S & P').
  exists f1, b1, xs, f', cs', st'. split; [exact E|]. split; [exact E2|]. split; [exact S|]. destruct st' as [ts' vs' hs']. eapply pinv_hold; eauto.
Qed.
