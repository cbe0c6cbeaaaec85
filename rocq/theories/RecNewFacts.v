(* Creating the records of a file. *)
From Coq.Strings Require Import Byte String.
From Coq Require Import List ZArith Lia Bool ZifyBool ZifyNat.
From Verif Require Import Base BaseFacts Dtype Cast Array FS Fmt Attr Block File Record Spec FSFacts DtypeFacts
  AttrSpec OpenSpec OpenFacts HistSpec HistFacts FrameFacts FileSpec FileFacts RecSpec RecFacts RecIOFacts.
Import ListNotations.
Open Scope Z_scope.
Local Open Scope out_scope.

Lemma in_block_app base p : in_block base p -> exists c, p = resolve base ++ [c].
Proof.
  intros [[->|[->|(i & Hi & ->)]]| ->]; eexists; apply resolve_join; auto using header_plain, attr_plain, attr2_plain.
  apply print_06X_plain; auto.
Qed.
Lemma not_longer (p : path) c : ~ prefix_of (p ++ [c]) p.
Proof. intros [r H]. apply (f_equal (@length bytes)) in H. rewrite !app_length in H. cbn in H. lia. Qed.
Lemma prefix_drop (p q : path) c : prefix_of (p ++ [c]) q -> prefix_of p q.
Proof. intros [r ->]. rewrite <- app_assoc. apply prefix_app. Qed.

Section New.
  Variables (e : env) (bf : bytes) (rt : rtype).
  Hypothesis K : rec_kind e bf rt.

  Definition ready (f : fs) (base : bytes) : Prop :=
    way_free f (resolve base) /\ (forall p, block_file base p -> fs_get f p <> Some Dir) /\ fs_get f (attr1_path base) = None.

  Lemma ready_dirs f f' base R : only_new_dirs f f' R -> ~ prefix_of (resolve base) R -> ready f base -> ready f' base.
  Proof.
    intros [N1 N2] Hp (W & B & A). split; [|split].
    - intros q c Hq Hc. destruct (fs_get f q) as [n|] eqn:E.
      + rewrite (N1 _ _ E) in Hc. injection Hc as ->. exact (W q c Hq E).
      + destruct (N2 _ _ E Hc) as [X _]. discriminate X.
    - intros p Hb Hc. destruct (in_block_app base p (or_introl Hb)) as (c & Ep). destruct (fs_get f p) as [n|] eqn:E.
      + rewrite (N1 _ _ E) in Hc. injection Hc as ->. exact (B p Hb E).
      + destruct (N2 _ _ E Hc) as [_ X]. apply Hp. rewrite Ep in X. eapply prefix_drop; eauto.
    - destruct (fs_get f' (attr1_path base)) as [n|] eqn:E; [|auto]. destruct (in_block_app base _ (or_intror eq_refl)) as (c & Ep).
      destruct (N2 _ _ A E) as [_ X]. exfalso. apply Hp. rewrite Ep in X. eapply prefix_drop; eauto.
  Qed.
  Lemma ready_frames f f' base base' : frames base' f f' -> ~ prefix_of (resolve base') (resolve base) -> resolve base <> resolve base' ->
    ready f base -> ready f' base.
  Proof.
    intros F Hp Hne (W & B & A). assert (Hk : forall p, in_block base p -> fs_get f' p = fs_get f p).
    { intros p Hb. apply F. intros X. destruct (in_block_app _ _ Hb) as (c & E1). destruct (in_block_app _ _ (or_introl X)) as (c' & E2).
      rewrite E1 in E2. apply app_inj_tail in E2. destruct E2. contradiction. }
    split; [|split].
    - intros q c Hq. rewrite F; [apply W; auto|]. intros X. destruct (in_block_app _ _ (or_introl X)) as (c' & E2). subst q. apply Hp. eapply prefix_drop; eauto.
    - intros p Hb. rewrite Hk by (left; auto). auto.
    - rewrite Hk by (right; auto). auto.
  Qed.
  Lemma same_dirs f f' base R : only_new_dirs f f' R -> ~ prefix_of (resolve base) R -> fs_get f (resolve base) = Some Dir -> same_block base f f'.
  Proof.
    intros [N1 N2] Hp D. split; [rewrite D; apply N1; auto|]. intros p Hb. destruct (fs_get f p) as [n|] eqn:E; [auto|].
    destruct (fs_get f' p) as [n|] eqn:E'; [|auto]. destruct (N2 _ _ E E') as [_ X]. destruct (in_block_app _ _ Hb) as (c & Ep).
    exfalso. apply Hp. rewrite Ep in X. eapply prefix_drop; eauto.
  Qed.

  Lemma join_len p s : (length s <= length (path_join p s))%nat.
  Proof. unfold path_join. destruct (rev p) as [|c r]; [lia|]. destruct (Byte.eqb c "/"); rewrite ?app_length; cbn [length app]; rewrite ?app_length; lia. Qed.

  Lemma create_field_ok f sizes k fd nm : nth_error (rt_fields rt) k = Some fd -> field_kind e bf fd nm ->
    layout_ok sizes -> zlen sizes <= 2 ^ 24 -> way_made f (resolve bf) -> ready f (fbase bf nm) ->
    exists f1 f', create_field e bf rt true (zlen sizes) sizes (Z.of_nat k) f = Ret (0, f') /\
      only_new_dirs f f1 (resolve (fbase bf nm)) /\ frames (fbase bf nm) f1 f' /\ block_dir f1 (fbase bf nm) /\
      frec e bf rt (new_table sizes) f' k.
  Proof.
    intros Hk F Hlay HN Hmade Hr. pose proof (fk_name _ _ _ _ F) as Hnm. pose proof (fk_block _ _ _ _ F) as (B1 & B2 & B3).
    pose proof (join_len bf nm) as Hjl. fold (fbase bf nm) in *.
    assert (Hne : fbase bf nm <> []) by (intros X; rewrite X in B1; discriminate B1).
    destruct (mksubdir_succeeds f bf nm) as (f1 & E1 & M1); [lia|exact Hne|exact Hmade|apply Hr|].
    destruct (mksubdir_new f bf nm 0 f1 ltac:(lia) E1) as [N1 _]. fold (fbase bf nm) in *.
    assert (Hnew : forall p, in_block (fbase bf nm) p -> fs_get f1 p = fs_get f p).
    { intros p Hp. destruct (in_block_app _ _ Hp) as (c & Ep). destruct (fs_get f p) as [n|] eqn:E; [apply N1; auto|].
      destruct (fs_get f1 p) as [n|] eqn:E'; [|auto]. destruct (proj2 N1 _ _ E E') as [_ X]. exfalso. rewrite Ep in X. exact (not_longer _ _ X). }
    assert (D1 : block_dir f1 (fbase bf nm)).
    { destruct Hr as (_ & Hb & _). split; [apply M1, prefix_refl|].
      split; [rewrite Hnew by (left; apply bf_header); apply Hb, bf_header|].
      split; [rewrite Hnew by (left; apply bf_attr); apply Hb, bf_attr|].
      intros i Hi. rewrite Hnew by (left; apply bf_data; auto). apply Hb, bf_data. auto. }
    assert (A1 : fs_get f1 (attr1_path (fbase bf nm)) = None) by (rewrite Hnew by (right; auto); apply Hr).
    destruct (fdt_ok e bf fd nm F) as [Hdt His].
    destruct (hist_create e f1 (fbase bf nm) (rf_dtype fd) (rf_nmemb fd) sizes) as (f2 & b & E2 & I2 & _); auto.
    { apply F. } { apply F. }
    assert (F12 : frames (fbase bf nm) f1 f2).
    { destruct (create_spec e f1 (fbase bf nm) (rf_dtype fd) (rf_nmemb fd) sizes) as (f2' & b' & E2' & H); auto; [apply F|].
      rewrite E2 in E2'. injection E2' as <- <-. destruct H as (_ & _ & _ & _ & _ & _ & _ & _ & _ & _ & _ & _ & O).
      intros p Hp. apply O. intros [X|[X|(j & Hj & X)]]; apply Hp; [left; auto|right; left; auto|right; right; exists j; split; [lia|auto]]. }
    destruct (close_closed _ _ _ _ _ _ _ _ I2) as (f3 & E3 & C3).
    pose proof (close_frames _ _ _ _ _ E3) as F23. rewrite (hv_base _ _ _ _ _ _ _ _ I2) in F23.
    unfold create_field. rewrite (the_field_nth _ _ _ Hk). cbn [bind]. rewrite Hnm. cbn [or_ub bind].
    unfold field_dtype. replace (length (rf_dtype fd) <? 8)%nat with true by (symmetry; apply Nat.ltb_lt; apply F). cbn [bind].
    unfold big_file_create_block. rewrite E1. change (0 =? 0) with true. cbv iota. fold (fbase bf nm). rewrite E2. cbn [bind]. rewrite E3. cbn [bind].
    exists f1, f3. split; [reflexivity|]. split; [exact N1|]. split; [eapply frames_trans; eauto|]. split; [exact D1|].
    intros fd0 nm0 Hk0 Hn0. rewrite Hk in Hk0. injection Hk0 as <-. rewrite Hnm in Hn0. injection Hn0 as <-.
    exists (new_table sizes). split; [|split; reflexivity]. unfold fclosed, fdt in *. rewrite His in C3. exact C3.
  Qed.

  Lemma apart i j fi fj ni nj : i <> j -> nth_error (rt_fields rt) i = Some fi -> nth_error (rt_fields rt) j = Some fj ->
    rf_name fi = Some ni -> rf_name fj = Some nj -> ~ prefix_of (resolve (fbase bf ni)) (resolve (fbase bf nj)).
  Proof. intros. eapply (rk_apart _ _ _ K i j fi fj); eauto. Qed.

  Lemma create_records_ok f sizes : new_records e bf rt f sizes ->
    exists f', create_records e f bf rt true (zlen sizes) sizes = Ret (0, f') /\ rec_inv e bf rt (new_table sizes) f'.
  Proof.
    intros [Hlay HN Hdir Hway]. unfold create_records.
    pose (Inv := fun (i : nat) (g : fs) => way_made g (resolve bf) /\
      (forall k, (k < i)%nat -> frec e bf rt (new_table sizes) g k) /\
      (forall k fd nm, (i <= k)%nat -> nth_error (rt_fields rt) k = Some fd -> rf_name fd = Some nm -> ready g (fbase bf nm))).
    destruct (each_field_ok (create_field e bf rt true (zlen sizes) sizes) Inv (length (rt_fields rt))) with (m := length (rt_fields rt)) (k := 0%nat) (st := f)
      as (f' & E & (_ & I1 & _)).
    - intros i g Hi (I0 & I1 & I2). destruct (the_kind e bf rt K i Hi) as (fd & nm & Hk & F). pose proof (fk_name _ _ _ _ F) as Hnm.
      destruct (create_field_ok g sizes i fd nm Hk F Hlay HN I0 (I2 i fd nm (le_n i) Hk Hnm)) as (g1 & g' & E & N & Fr & D & R).
      exists g'. split; [exact E|]. split; [|split].
      + intros q Hq. assert (Q : fs_get g1 q = Some Dir) by (apply N; apply I0; auto). rewrite Fr; [exact Q|].
        intros X. destruct D as (_ & D2 & D3 & D4). destruct X as [->|[->|(x & Hx & ->)]]; [apply D2|apply D3|eapply D4]; eauto.
      + intros k Hk2. destruct (Nat.eq_dec k i) as [->|Hne]; [exact R|].
        intros fd' nm' Hk' Hnm'. destruct (I1 k ltac:(lia) fd' nm' Hk' Hnm') as (t & C & Tt). exists t. split; [|exact Tt].
        pose proof (apart k i fd' fd nm' nm Hne Hk' Hk Hnm' Hnm) as Hap.
        assert (S1 : same_block (fbase bf nm') g g1).
        { eapply same_dirs; [exact N|exact Hap|]. exact (proj1 (closed_dir _ _ _ _ _ _ _ C)). }
        pose proof (closed_same _ _ _ _ _ _ _ _ S1 C) as C1.
        eapply closed_same; [|exact C1]. eapply (frames_same (fbase bf nm)); [|exact D|exact (proj1 (closed_dir _ _ _ _ _ _ _ C1))|exact Fr].
        intros X. apply Hap. rewrite X. apply prefix_refl.
      + intros k fd' nm' Hk2 Hk' Hnm'. assert (Hne : k <> i) by lia.
        pose proof (apart k i fd' fd nm' nm Hne Hk' Hk Hnm' Hnm) as Hap.
        pose proof (apart i k fd fd' nm nm' ltac:(lia) Hk Hk' Hnm Hnm') as Hap2.
        eapply ready_frames; [exact Fr|exact Hap2| |eapply ready_dirs; [exact N|exact Hap|apply (I2 k fd' nm'); [lia|exact Hk'|exact Hnm']]].
        intros X. apply Hap. rewrite X. apply prefix_refl.
    - lia.
    - split; [exact Hdir|]. split; [lia|]. intros k fd nm _ Hk Hnm. destruct (Hway k fd nm Hk Hnm) as (W & H1 & H2 & H3 & H4).
      split; [exact W|]. split; [|exact H4]. intros p [->|[->|(i & Hi & ->)]]; auto.
    - exists f'. split; [exact E|]. intros k Hk. auto.
  Qed.

  Lemma records_run f sizes os : new_records e bf rt f sizes -> rops_ok rt sizes os ->
    exists xs f' T, create_records_and_run e f bf rt sizes os = Ret (0, (xs, f')) /\ rspecs (e_me e) rt (new_table sizes) os xs T.
  Proof.
    intros N Hok. destruct (create_records_ok f sizes N) as (f1 & E & I).
    destruct (rec_run e bf rt K os (new_table sizes) f1 I) as (xs & f' & T & E2 & S & _); auto.
    { intros r v H. discriminate H. }
    exists xs, f', T. unfold create_records_and_run. rewrite E. cbn [bind]. rewrite E2. auto.
  Qed.
End New.

(* ------------------------------------------------ creating a block by name *)
Lemma create_block_spec e f bf nm d nmemb sizes : let base := path_join bf nm in
  block_name base -> layout_ok sizes -> way_made f (resolve bf) -> creatable f base ->
  exists f' b, big_file_create_block e f bf nm (Some d) nmemb (zlen sizes) sizes = Ret (f', Some b) /\
    way_made f' (resolve base) /\ way_made f' (resolve bf) /\ creatable f' base /\
    (forall q n, ~ own_file base q -> fs_get f q = Some n -> fs_get f' q = Some n) /\
    (forall q n, ~ own_file base q -> fs_get f q = None -> fs_get f' q = Some n -> n = Dir /\ prefix_of q (resolve base)).
Proof.
  intros base HB Hlay Hmade [W B]. pose proof HB as (B1 & B2 & B3). pose proof (join_len bf nm) as Hjl. fold base in Hjl.
  assert (Hne : base <> []) by (intros X; rewrite X in B1; discriminate B1).
  destruct (mksubdir_succeeds f bf nm) as (f1 & E1 & M1); [lia|exact Hne|exact Hmade|exact W|].
  destruct (mksubdir_new f bf nm 0 f1 ltac:(lia) E1) as [N1 _]. fold base in M1, N1.
  assert (Hown : forall p, own_file base p -> exists c, p = resolve base ++ [c]) by (intros p Hp; apply in_block_app; left; exact Hp).
  assert (Hnew : forall p, own_file base p -> fs_get f1 p <> Some Dir).
  { intros p Hp X. destruct (Hown _ Hp) as (c & Ep). destruct (fs_get f p) as [n|] eqn:E.
    - rewrite (proj1 N1 _ _ E) in X. injection X as ->. exact (B p Hp E).
    - destruct (proj2 N1 _ _ E X) as [_ Y]. rewrite Ep in Y. exact (not_longer _ _ Y). }
  assert (D1 : block_dir f1 base).
  { split; [apply M1, prefix_refl|]. split; [apply Hnew; left; auto|]. split; [apply Hnew; right; left; auto|].
    intros i Hi. apply Hnew. right. right. eauto. }
  destruct (create_spec e f1 base d nmemb sizes HB D1 Hlay) as (f2 & b & E2 & _ & _ & _ & _ & _ & _ & _ & _ & D2 & _ & _ & _ & O).
  assert (O' : forall q, ~ own_file base q -> fs_get f2 q = fs_get f1 q).
  { intros q Hq. apply O. intros [X|[X|(j & Hj & X)]]; apply Hq; [left; auto|right; left; auto|right; right; exists j; split; [lia|auto]]. }
  assert (Hpre : forall q, prefix_of q (resolve base) -> ~ own_file base q).
  { intros q Hq X. destruct (Hown _ X) as (c & ->). exact (not_longer _ _ Hq). }
  exists f2, b. unfold big_file_create_block. rewrite E1. change (0 =? 0) with true. cbv iota. fold base. rewrite E2.
  split; [reflexivity|]. split; [|split; [|split; [split|split]]].
  - intros q Hq. rewrite O' by auto. apply M1. auto.
  - intros q Hq. assert (Q : fs_get f1 q = Some Dir) by (apply N1, Hmade, Hq). rewrite O'; [exact Q|]. intros X. exact (Hnew q X Q).
  - intros q c Hq. rewrite O' by auto. rewrite (M1 q Hq). discriminate.
  - destruct D2 as (_ & X1 & X2 & X3). intros p [->|[->|(i & Hi & ->)]]; auto.
  - intros q n Hq H. rewrite O' by auto. apply N1. auto.
  - intros q n Hq H1 H2. rewrite O' in H2 by auto. apply N1; auto.
Qed.
Lemma create_file_spec f s : (length s <= Z.to_nat 8192)%nat -> s <> [] -> way_free f (resolve s) ->
  exists f', big_file_create f s = (f', Some s) /\ way_made f' (resolve s) /\ only_new_dirs f f' (resolve s) /\
    big_file_create f' s = (f', Some s) /\ big_file_open f' s = Some s.
Proof.
  intros Hl Hne W. destruct (mksubdir_succeeds f [] s Hl) as (f1 & E1 & M1); auto.
  { intros q [r Hq]. destruct q; [reflexivity|discriminate]. }
  destruct (mksubdir_new f [] s 0 f1 Hl E1) as [N1 _]. pose proof (mksubdir_again _ _ _ _ E1) as E2. cbn [path_join rev] in *.
  exists f1. unfold big_file_create. rewrite E1, E2, strdup_id by auto. split; [reflexivity|]. split; [exact M1|]. split; [exact N1|].
  split; [reflexivity|]. unfold big_file_open. destruct s as [|c s]; [contradiction|]. rewrite (M1 _ (prefix_refl _)), strdup_id by auto. reflexivity.
Qed.

Lemma nth_error_ext_eq {A} (a b : list A) : length a = length b -> (forall j v, nth_error a j = Some v -> nth_error b j = Some v) -> a = b.
Proof.
  revert b. induction a as [|x a IH]; intros [|y b] L H; try discriminate; [reflexivity|]. f_equal.
  - specialize (H 0%nat x eq_refl). injection H as ->. reflexivity.
  - apply IH; [cbn in L; lia|]. intros j v Hj. exact (H (S j) v Hj).
Qed.
Lemma records_round_trip e bf rt f sizes o n buf um recs buf2 um2 : rec_kind e bf rt -> new_records e bf rt f sizes ->
  0 <= o -> o + n <= zsum sizes -> counts_ok rt n -> recs_at rt um buf n recs ->
  (forall x, buf2 <= x < buf2 + n * rt_itemsize rt -> um2 x <> None) ->
  exists um1 um3 f', create_records_and_run e f bf rt sizes [RWrite o n buf um; RRead o n buf2 um2] =
      Ret (0, ([(0, Some um1); (0, Some um3)], f')) /\
    left_by_write (e_me e) rt um um1 buf n /\ recs_at rt um3 buf2 n recs /\
    forall x, ~ (buf2 <= x < buf2 + n * rt_itemsize rt) -> um3 x = um2 x.
Proof.
  intros K N Ho Hr Hc Hrec Hm.
  assert (Hb : o < 2 ^ 63) by (destruct (nr_layout _ _ _ _ _ N) as (_ & L & _); pose proof (proj1 Hc); lia).
  destruct (records_run e bf rt K f sizes [RWrite o n buf um; RRead o n buf2 um2] N) as (xs & f' & T & E & S).
  { split; [split; [lia|split; [auto|exists recs; auto]]|]. split; [split; [lia|split; [auto|exact Hm]]|exact I]. }
  inversion S as [|t0 o1 x1 t1 os1 xs1 t2 S1 S2]; subst. inversion S2 as [|t0 o1 x2 t3 os2 xs2 t4 S3 S4]; subst. inversion S4; subst.
  assert (Hsz : t_size (new_table sizes) = zsum sizes) by reflexivity.
  inversion S1 as [o1 n1 b1 m1 um1 recs1 R1 A1 L1|o1 n1 b1 m1 R1| |]; subst; [|lia].
  assert (recs1 = recs).
  { destruct A1 as [A1 A2], Hrec as [B1 B2]. apply nth_error_ext_eq. { unfold zlen in *. lia. }
    intros j v H. specialize (A2 j v H). destruct (nth_error recs j) as [v'|] eqn:Ej.
    - specialize (B2 j v' Ej). congruence.
    - apply nth_error_None in Ej. assert (j < length recs1)%nat by (apply nth_error_Some; congruence). unfold zlen in *. lia. }
  subst recs1. inversion S3 as [| |o1 n1 b1 m1 rc um3 Q1 Q2 Q3|]; subst.
  destruct (Q2 recs) as (-> & Q4 & Q5); [exact R1|apply Hrec| |].
  - intros j v Hj. left. cbn [with_rows t_row]. assert (Hjl : (j < length recs)%nat) by (apply nth_error_Some; congruence).
    unfold zlen. replace (o <=? o + Z.of_nat j) with true by lia. replace (o + Z.of_nat j <? o + Z.of_nat (length recs)) with true by lia. cbn [andb].
    replace (Z.to_nat (o + Z.of_nat j - o)) with j by lia. exact Hj.
  - exists um1, um3, f'. auto.
Qed.
