(* Every block operation touches only the files of its own block. *)
From Coq.Strings Require Import Byte String.
From Coq Require Import List ZArith Lia Bool ZifyBool ZifyNat.
From Verif Require Import Base BaseFacts Dtype Cast Array FS Fmt Attr Block Spec AttrSpec OpenSpec HistSpec
  SeekFacts FSFacts ArrayFacts ConvFacts WriteFacts ReadFacts TableFacts IOFacts
  HeaderFacts DtypeFacts AttrFacts TextFacts OpenFacts ReopenFacts SessFacts HistFacts.
Import ListNotations.
Open Scope Z_scope.
Local Open Scope out_scope.

(* the files a block operation may write *)
Definition block_file (base : bytes) (p : path) : Prop :=
  p = header_path base \/ p = attr2_path base \/ exists i, 0 <= i /\ p = data_path base i.
Definition frames (base : bytes) (f f' : fs) : Prop := only_changes f f' (block_file base).

Lemma frames_refl base f : frames base f f.
Proof. intros p _. reflexivity. Qed.
Lemma frames_trans base f g h : frames base f g -> frames base g h -> frames base f h.
Proof. intros A B p Hp. rewrite (B p Hp). apply A. auto. Qed.
Lemma frames_set base f p n : block_file base p -> frames base f (fs_set f p n).
Proof. intros Hb q Hq. apply fs_get_set_other. intros ->. auto. Qed.
Lemma frames_open_w base f p f' : block_file base p -> fopen_w f p = Some f' -> frames base f f'.
Proof.
  intros Hb. unfold fopen_w. destruct (fs_get f p) as [[|c]|]; [discriminate| |destruct (is_dir f (parent p)); [|discriminate]];
    intros [= <-]; apply frames_set; auto.
Qed.
Lemma bf_header base : block_file base (header_path base). Proof. left. auto. Qed.
Lemma bf_attr base : block_file base (attr2_path base). Proof. right. left. auto. Qed.
Lemma bf_data base i : 0 <= i -> block_file base (data_path base i). Proof. intros. right. right. eauto. Qed.
#[global] Hint Resolve bf_header bf_attr frames_refl : core.

Lemma bind_ret {A B} (o : out A) (k : A -> out B) r : bind o k = Ret r -> exists a, o = Ret a /\ k a = Ret r.
Proof. destruct o; try discriminate. cbn [bind]. eauto. Qed.

Lemma flush_frames e f b rc f' b' : big_block_flush e f b = Ret (rc, f', b') -> frames (b_base b) f f' /\ b_base b' = b_base b.
Proof.
  unfold big_block_flush. intros H. apply bind_ret in H. destruct H as ([[rc1 f1] b1] & H1 & H2).
  assert (F1 : frames (b_base b) f f1 /\ b_base b1 = b_base b).
  { destruct (b_dirty b).
    - destruct (fopen_w f (header_path (b_base b))) as [fa|] eqn:E; [|injection H1 as <- <- <-; auto].
      apply bind_ret in H1. destruct H1 as (img & _ & H1). injection H1 as <- <- <-. split; [|reflexivity].
      eapply frames_trans; [eapply frames_open_w; [|exact E]; auto|]. apply frames_set. auto.
    - injection H1 as <- <- <-. auto. }
  destruct F1 as [F1 B1]. destruct (negb (rc1 =? 0)); [injection H2 as <- <- <-; auto|].
  destruct (as_dirty (b_attrset b1)); [|injection H2 as <- <- <-; auto].
  destruct (fopen_w f1 (attr2_path (b_base b1))) as [f2|] eqn:E; [|injection H2 as <- <- <-; auto].
  apply bind_ret in H2. destruct H2 as ([img s'] & _ & H2). injection H2 as <- <- <-. split; [|auto].
  eapply frames_trans; [exact F1|]. rewrite B1 in *. eapply frames_trans; [eapply frames_open_w; [|exact E]; auto|]. apply frames_set. auto.
Qed.
Lemma close_frames e f b rc f' : big_block_close e f b = Ret (rc, f') -> frames (b_base b) f f'.
Proof.
  unfold big_block_close. intros H. apply bind_ret in H. destruct H as ([[rc1 f1] b1] & H1 & H2). injection H2 as <- <-.
  eapply flush_frames; eauto.
Qed.
Lemma truncate_frames base n : forall f i rc f', 0 <= i -> truncate_files f base i n = (rc, f') -> frames base f f'.
Proof.
  induction n as [|n IH]; intros f i rc f' Hi H; cbn [truncate_files] in H; [injection H as <- <-; auto|].
  destruct (fopen_w f (data_path base i)) as [f1|] eqn:E; [|injection H as <- <-; auto].
  eapply frames_trans; [eapply frames_open_w; [apply bf_data; eauto|exact E]|]. eapply IH; [|exact H]. lia.
Qed.
Lemma grow_frames f b n gs rc f' b' : 0 <= b_Nfile b -> big_block_grow f b n gs = Ret (rc, f', b') ->
  frames (b_base b) f f' /\ b_base b' = b_base b.
Proof.
  intros Hn. unfold big_block_grow. intros H. apply bind_ret in H. destruct H as (b1 & H1 & H2).
  destruct (truncate_files _ _ _ _) as [rc1 f1] eqn:E. injection H2 as <- <- <-.
  split; [eapply truncate_frames; eauto|]. unfold grow_internal in H1. destruct (_ || _); [discriminate|]. injection H1 as <-. reflexivity.
Qed.
Lemma write_loop_frames e ca cs fuel : forall f b p cb um ai n rc f' b' p' um',
  write_loop e f b p cb ca um ai cs n fuel = Ret (rc, f', b', p', um') -> frames (b_base b) f f' /\ b_base b' = b_base b.
Proof.
  induction fuel as [|fuel IH]; intros f b p cb um ai n rc f' b' p' um' H; cbn [write_loop] in H; [discriminate|].
  destruct (negb (0 <? n)); [injection H as <- <- <- <- <-; auto|].
  apply bind_ret in H. destruct H as (eof & _ & H). destruct eof; [injection H as <- <- <- <- <-; auto|].
  apply bind_ret in H. destruct H as (c & _ & H).
  apply bind_ret in H. destruct H as ([[[[rc1 cb1] x] um1] ai1] & _ & H).
  destruct (negb (rc1 =? 0)); [injection H as <- <- <- <- <-; auto|].
  apply bind_ret in H. destruct H as (l & _ & H).
  apply bind_ret in H. destruct H as (old & Hold & H).
  apply bind_ret in H. destruct H as (cks & _ & H).
  assert (Hid : 0 <= p_fileid p).
  { unfold znth, or_ub in Hold. destruct (p_fileid p <? 0) eqn:E; [discriminate|lia]. }
  destruct (fopen_rp f _) as [cont|]; [|injection H as <- <- <- <- <-; auto].
  destruct (p_roffset p * felsize e b <? 0); [injection H as <- <- <- <- <-; auto|].
  apply bind_ret in H. destruct H as ([rc2 p1] & _ & H).
  pose proof (frames_set (b_base b) f (data_path (b_base b) (p_fileid p))
    (File (pwrite cont (Z.to_nat (p_roffset p * felsize e b)) l)) (bf_data _ _ Hid)) as F.
  destruct (negb (rc2 =? 0)); [injection H as <- <- <- <- <-; auto|].
  apply IH in H. cbn [set_checksums b_base] in H. destruct H as [F2 B2]. split; [|exact B2]. eapply frames_trans; eauto.
Qed.
Lemma write_frames e f b p a um rc f' b' p' um' : big_block_write e f b p a um = Ret (rc, f', b', p', um') ->
  frames (b_base b) f f' /\ b_base b' = b_base b.
Proof.
  unfold big_block_write, big_block_write_fuel. intros H. destruct (a_size a =? 0); [injection H as <- <- <- <- <-; auto|].
  destruct (2 ^ 31 <=? _); [discriminate|]. destruct (_ =? 0); [discriminate|].
  apply bind_ret in H. destruct H as (ca & _ & H). apply bind_ret in H. destruct H as (o & _ & H).
  destruct (_ <? _); [injection H as <- <- <- <- <-; auto|].
  apply write_loop_frames in H. exact H.
Qed.
Lemma hstep_frames e f b op x f' b' : 0 <= b_Nfile b -> op <> HReopen -> hstep e (f, b) op = Ret (x, (f', b')) ->
  frames (b_base b) f f' /\ b_base b' = b_base b.
Proof.
  intros Hn Hop H. destruct op as [o a um|o a um|gs| |]; cbn [hstep] in H; [| | | |congruence].
  - apply bind_ret in H. destruct H as ([rc p] & _ & H). destruct (negb (rc =? 0)); [injection H as <- <- <-; auto|].
    apply bind_ret in H. destruct H as ([[[[rc2 f2] b2] p2] um2] & H1 & H). injection H as <- <- <-. eapply write_frames; eauto.
  - apply bind_ret in H. destruct H as ([rc p] & _ & H). destruct (negb (rc =? 0)); [injection H as <- <- <-; auto|].
    apply bind_ret in H. destruct H as ([[rc2 p2] um2] & H1 & H). injection H as <- <- <-. auto.
  - apply bind_ret in H. destruct H as ([[rc f2] b2] & H1 & H). injection H as <- <- <-. eapply grow_frames; eauto.
  - apply bind_ret in H. destruct H as ([[rc f2] b2] & H1 & H). injection H as <- <- <-. eapply flush_frames; eauto.
Qed.

(* ------------------------------------------------ blocks of different names *)
Lemma block_file_parent base p : block_file base p -> parent p = resolve base /\ proper p.
Proof.
  intros [->|[->|(i & Hi & ->)]].
  - split; [apply parent_join, header_plain|apply header_path_proper].
  - split; [apply parent_join, attr2_plain|apply attr2_path_proper].
  - split; [apply parent_join, print_06X_plain; auto|apply data_path_proper; auto].
Qed.
Definition in_block (base : bytes) (p : path) : Prop := block_file base p \/ p = attr1_path base.
Lemma in_block_parent base p : in_block base p -> parent p = resolve base.
Proof. intros [H| ->]; [apply block_file_parent; auto|]. apply parent_join, attr_plain. Qed.

(* what the files of a block are survives changes elsewhere *)
Definition same_block (base : bytes) (f f' : fs) : Prop :=
  fs_get f' (resolve base) = fs_get f (resolve base) /\ forall p, in_block base p -> fs_get f' p = fs_get f p.

Lemma frames_same base1 base2 f f' : resolve base1 <> resolve base2 -> block_dir f base1 ->
  fs_get f (resolve base2) = Some Dir -> frames base1 f f' -> same_block base2 f f'.
Proof.
  intros Hne (D1 & D2 & D3 & D4) D F. split.
  - apply F. intros [X|[X|(i & Hi & X)]]; rewrite X in D; [apply D2|apply D3|apply (D4 i Hi)]; auto.
  - intros p Hp. apply F. intros X. apply block_file_parent in X. apply in_block_parent in Hp. destruct X. congruence.
Qed.
Lemma same_block_trans base f g h : same_block base f g -> same_block base g h -> same_block base f h.
Proof. intros [A1 A2] [B1 B2]. split; [congruence|]. intros p Hp. rewrite B2, A2; auto. Qed.
Lemma same_block_dir base f f' : same_block base f f' -> block_dir f base -> block_dir f' base.
Proof.
  intros [S1 S2] (D1 & D2 & D3 & D4). split; [congruence|]. split; [rewrite S2; auto; left; auto|].
  split; [rewrite S2; auto; left; auto|]. intros i Hi. rewrite S2; auto. left. apply bf_data. auto.
Qed.
Lemma hinv_same e base dt nmemb w t f f' b : same_block base f f' -> hinv e base dt nmemb w t f b -> hinv e base dt nmemb w t f' b.
Proof.
  intros S I. assert (Hdf : forall i, data_file f' base i = data_file f base i).
  { intros i. unfold data_file. rewrite (proj2 S); auto. left. apply bf_data. lia. }
  assert (Hst : forall r, stored_row f' base (t_sizes t) w r = stored_row f base (t_sizes t) w r).
  { intros r. unfold stored_row. destruct (home _ r) as [[i q]|]; auto. rewrite Hdf. auto. }
  destruct I. constructor; auto.
  - eapply same_block_dir; eauto.
  - intros i Hi. rewrite Hdf. auto.
  - intros i c Hi Hc. rewrite Hdf in Hc. eauto.
  - intros r v Hr. rewrite Hst. auto.
  - intros r v Hr. rewrite Hst in Hr. auto.
  - intros Hd. rewrite (proj2 S); auto. left. auto.
  - destruct hv_att as (s & Hs & Hd). exists s. split; auto. rewrite <- Hs. apply open_attrs_frame; apply S; [right; auto|left; auto].
Qed.

(* ------------------------------------------------ a block nobody has open *)
Definition closed (e : env) (base dt : bytes) (nmemb w : Z) (t : table) (f : fs) : Prop :=
  exists b, hinv e base dt nmemb w t f b /\ b_dirty b = false.
Record kind_ok (e : env) (base dt : bytes) (nmemb w : Z) : Prop := {
  ko_name : block_name base;
  ko_type : header_type dt;
  ko_nmemb : nmemb < 2 ^ 31;
  ko_chunk : w <= e_chunk e;
  ko_width : w < 2 ^ 31
}.
Lemma clean_flush e f b : b_dirty b = false -> as_dirty (b_attrset b) = false -> big_block_flush e f b = Ret (0, f, b).
Proof. intros H1 H2. unfold big_block_flush. rewrite H1. cbn [bind]. change (negb (0 =? 0)) with false. cbv iota. rewrite H2. reflexivity. Qed.
Lemma closed_open e base dt nmemb w t f : kind_ok e base dt nmemb w -> closed e base dt nmemb w t f ->
  exists b, big_block_open e f base = Ret (Some b) /\ hinv e base dt nmemb w t f b.
Proof.
  intros [] (b & I & Hd). destruct (hist_reopen e base dt nmemb w ko_name0 ko_type0 ko_nmemb0 t f b I) as (f' & b' & E & I' & _).
  cbn [hstep] in E. unfold big_block_close in E. rewrite (clean_flush e f b Hd) in E by apply I. cbn [bind] in E.
  rewrite (hv_base _ _ _ _ _ _ _ _ I) in E. destruct (big_block_open e f base) as [[b2|]| |]; try discriminate E.
  cbn [bind] in E. injection E as <- <-. eauto.
Qed.
Lemma close_closed e base dt nmemb w t f b : hinv e base dt nmemb w t f b ->
  exists f', big_block_close e f b = Ret (0, f') /\ closed e base dt nmemb w t f'.
Proof.
  intros I. destruct (hist_flush e base dt nmemb w t f b I) as (f' & E & I' & _). exists f'. unfold big_block_close. rewrite E.
  split; [reflexivity|]. exists (set_bdirty b false). auto.
Qed.
Lemma closed_same e base dt nmemb w t f f' : same_block base f f' -> closed e base dt nmemb w t f -> closed e base dt nmemb w t f'.
Proof. intros S (b & I & Hd). exists b. split; auto. eapply hinv_same; eauto. Qed.
Lemma closed_dir e base dt nmemb w t f : closed e base dt nmemb w t f -> block_dir f base.
Proof. intros (b & I & _). apply I. Qed.
Lemma create_frames e f base d nmemb n sizes f' ob : (length base <= Z.to_nat 8192)%nat ->
  big_block_create e f base d nmemb n sizes = Ret (f', ob) -> frames base f f'.
Proof.
  intros Hl H. unfold big_block_create in H. apply bind_ret in H. destruct H as ([f1 o1] & H1 & H).
  assert (F1 : frames base f f1 /\ forall b, o1 = Some b -> b_base b = base).
  { unfold create_internal in H1. destruct (has_blank base); [injection H1 as <- <-; split; [auto|discriminate]|].
    rewrite strdup_id in H1 by auto. destruct (is_meta base).
    - apply bind_ret in H1. destruct H1 as ([[rc f2] b2] & H2 & H1). apply flush_frames in H2. destruct H2 as [F B]. cbn [b_base] in *.
      destruct (negb (rc =? 0)); injection H1 as <- <-; split; auto; [discriminate|]. intros b [= <-]. exact B.
    - destruct (match d with Some _ => _ | None => _ end) as [[dt nf] fsz]. destruct (nf <? -1); [injection H1 as <- <-; split; [auto|discriminate]|].
      destruct (_ || _); [discriminate|]. apply bind_ret in H1. destruct H1 as ([[rc f2] b2] & H2 & H1).
      apply flush_frames in H2. destruct H2 as [F B]. cbn [b_base] in *.
      destruct (negb (rc =? 0)); injection H1 as <- <-; split; auto; [discriminate|]. intros b [= <-]. exact B. }
  destruct F1 as [F1 B1]. destruct o1 as [b|]; [|injection H as <- <-; exact F1].
  destruct (truncate_files _ _ _ _) as [rc f2] eqn:E. rewrite (B1 b eq_refl) in E. apply truncate_frames in E; [|lia].
  destruct (negb (rc =? 0)); injection H as <- <-; eapply frames_trans; eauto.
Qed.
Lemma frames_outside base f f' p : frames base f f' -> parent p <> resolve base -> fs_get f' p = fs_get f p.
Proof. intros F Hp. apply F. intros X. apply block_file_parent in X. tauto. Qed.
