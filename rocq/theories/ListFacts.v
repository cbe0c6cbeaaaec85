(* Facts about listings. *)
From Coq.Strings Require Import Byte String.
From Coq Require Import List ZArith Lia Bool ZifyBool ZifyNat Permutation.
From Verif Require Import Base BaseFacts Dtype Cast Array FS Fmt Attr Block File FileSpec Spec FSFacts OpenFacts FileFacts.
Import ListNotations.
Open Scope Z_scope.
Local Open Scope out_scope.

(* ------------------------------------------------ sorting, entries *)
Lemma nodup_app {A} (a b : list A) : NoDup a -> NoDup b -> (forall x, In x a -> In x b -> False) -> NoDup (a ++ b).
Proof.
  induction a as [|x a IH]; intros Ha Hb H; [exact Hb|]. inversion_clear Ha. cbn [app]. constructor.
  - rewrite in_app_iff. intros [X|X]; [contradiction|]. apply (H x); [left; auto|auto].
  - apply IH; auto. intros y H2 H3. apply (H y); [right; auto|auto].
Qed.
Lemma insert_perm c l : Permutation (c :: l) (insert_name c l).
Proof.
  induction l as [|d l IH]; [reflexivity|]. cbn [insert_name]. destruct (bytes_leb c d); [reflexivity|].
  rewrite perm_swap. constructor. exact IH.
Qed.
Lemma sort_perm l : Permutation l (sort_names l).
Proof. induction l as [|c l IH]; [reflexivity|]. cbn. rewrite <- insert_perm. constructor. exact IH. Qed.

Lemma find_in f q : fs_find f q <> None <-> exists n, In (q, n) f.
Proof.
  induction f as [|[q' n] f IH]; cbn [fs_find].
  - split; [congruence|]. intros [n []].
  - destruct (path_eqb q' q) eqn:E.
    + apply path_eqb_eq in E. subst. split; [|congruence]. intros _. exists n. left. auto.
    + rewrite IH. split; intros [m H]; exists m; [right; auto|]. destruct H as [H|H]; [|auto]. injection H as -> ->.
      exfalso. revert E. rewrite (proj2 (path_eqb_eq q q)); [discriminate|auto].
Qed.
Lemma get_find f p c : p ++ [c] <> [lit "/"] -> fs_get f (p ++ [c]) = fs_find f (p ++ [c]).
Proof.
  intros H. destruct p as [|x p]; cbn [app fs_get].
  - destruct (bytes_eqb c (lit "/")) eqn:E; [|auto]. apply bytes_eqb_eq in E. subst. contradiction.
  - destruct p; reflexivity.
Qed.
Lemma parent_some p q c : has_parent p q = Some c <-> q = p ++ [c] /\ q <> [lit "/"].
Proof.
  unfold has_parent. destruct (rev q) as [|x r] eqn:E.
  - split; [discriminate|]. intros [-> _]. rewrite rev_app_distr in E. discriminate.
  - apply (f_equal (@rev bytes)) in E. rewrite rev_involutive in E. cbn [rev] in E. subst q. rewrite removelast_last. split.
    + destruct (path_eqb (rev r) p) eqn:E1; [|discriminate]. destruct (path_eqb (rev r ++ [x]) [lit "/"]) eqn:E2; [discriminate|].
      cbn [negb andb]. intros [= <-]. apply path_eqb_eq in E1. subst p. split; [auto|]. intros X. rewrite (proj2 (path_eqb_eq _ _) X) in E2. discriminate.
    + intros [H1 H2]. apply app_inj_tail in H1. destruct H1 as [<- <-]. rewrite (proj2 (path_eqb_eq _ _) eq_refl).
      destruct (path_eqb (rev r ++ [x]) [lit "/"]) eqn:E2; [|reflexivity]. apply path_eqb_eq in E2. contradiction.
Qed.
Lemma entries_in f p c : In c (entries f p) <-> p ++ [c] <> [lit "/"] /\ fs_get f (p ++ [c]) <> None.
Proof.
  unfold entries. rewrite nodup_In, in_flat_map. split.
  - intros ([q n] & Hq & Hc). destruct (has_parent p q) as [c'|] eqn:E; [|destruct Hc]. destruct Hc as [->|[]].
    apply parent_some in E. destruct E as [-> H]. split; [auto|]. rewrite get_find by auto. apply find_in. eauto.
  - intros [H1 H2]. rewrite get_find in H2 by auto. apply find_in in H2. destruct H2 as [n Hn]. exists (p ++ [c], n). split; [auto|].
    rewrite (proj2 (parent_some p (p ++ [c]) c)); [left; auto|auto].
Qed.
Lemma scan_spec f s : s <> [] -> fs_get f (resolve s) = Some Dir -> exists l, scandir f s = Some l /\ NoDup l /\
  forall c, In c l <-> resolve s ++ [c] <> [lit "/"] /\ fs_get f (resolve s ++ [c]) <> None /\ listed_entry c = true.
Proof.
  intros Hs Hd. unfold scandir. destruct s as [|x s]; [contradiction|]. rewrite Hd. eexists. split; [reflexivity|]. split.
  - eapply Permutation_NoDup; [apply sort_perm|]. apply NoDup_filter. apply NoDup_nodup.
  - intros c. rewrite <- (Permutation_in' eq_refl (sort_perm _)). rewrite filter_In, entries_in. tauto.
Qed.

(* ------------------------------------------------ names *)
Lemma slashed_cons c r : r <> [] -> slashed (c :: r) = c ++ slash :: slashed r.
Proof. destruct r; [contradiction|]. reflexivity. Qed.
Lemma slashed_split cs : cs <> [] -> Forall entry_name cs -> split_slash [] (slashed cs) = cs.
Proof.
  induction cs as [|c cs IH]; intros Hne H; [contradiction|]. inversion_clear H. destruct H0 as [H2 H3].
  destruct cs as [|d cs].
  - cbn [slashed]. rewrite split_slash_plain by auto. reflexivity.
  - rewrite slashed_cons by discriminate. rewrite split_slash_app. rewrite split_slash_plain by auto. cbn [rev app].
    f_equal. apply IH; auto. discriminate.
Qed.
Lemma slashed_comps cs : Forall entry_name cs -> comps (slashed cs) = cs.
Proof.
  intros H. destruct cs as [|c cs]; [reflexivity|]. unfold comps. rewrite slashed_split by (auto; discriminate).
  assert (E : forall l, Forall entry_name l -> filter (fun c => negb (is_dot c)) l = l); [|apply E; exact H].
  induction l as [|x l IH]; intros HF; [reflexivity|]. inversion_clear HF. cbn [filter]. rewrite (proj1 H0). cbn. f_equal. auto.
Qed.
Lemma slashed_inj a b : Forall entry_name a -> Forall entry_name b -> slashed a = slashed b -> a = b.
Proof. intros Ha Hb E. rewrite <- (slashed_comps a Ha), <- (slashed_comps b Hb), E. reflexivity. Qed.
Lemma slashed_last cs c : cs <> [] -> slashed (cs ++ [c]) = slashed cs ++ slash :: c.
Proof.
  induction cs as [|x cs IH]; intros H; [contradiction|]. destruct cs as [|y cs]; [reflexivity|].
  change ((x :: y :: cs) ++ [c]) with (x :: ((y :: cs) ++ [c])). rewrite (slashed_cons x ((y :: cs) ++ [c])) by discriminate.
  rewrite (slashed_cons x (y :: cs)) by discriminate. rewrite IH by discriminate. rewrite <- app_assoc. reflexivity.
Qed.
Lemma slashed_end cs : cs <> [] -> Forall entry_name cs -> exists s c, slashed cs = s ++ [c] /\ c <> slash.
Proof.
  intros Hne H. destruct (exists_last Hne) as (l & c & ->). apply Forall_app in H. destruct H as [_ H]. apply Forall_inv in H. destruct H as [H1 H2].
  assert (Hc : c <> []) by (intros ->; discriminate H1). destruct (exists_last Hc) as (c1 & x & ->).
  assert (Hx : x <> slash) by (intros ->; apply H2; rewrite in_app_iff; right; left; reflexivity).
  destruct l as [|y l]; [exists c1, x; auto|]. rewrite slashed_last by discriminate. exists (slashed (y :: l) ++ slash :: c1), x.
  split; [|auto]. rewrite <- app_assoc. reflexivity.
Qed.
Lemma join_slashed cs c : Forall entry_name cs -> path_join (slashed cs) c = slashed (cs ++ [c]).
Proof.
  intros H. destruct cs as [|x cs]; [reflexivity|]. rewrite slashed_last by discriminate.
  destruct (slashed_end (x :: cs) ltac:(discriminate) H) as (s & z & E & Hz). unfold path_join. rewrite E, rev_app_distr. cbn [rev app].
  destruct (Byte.eqb z "/") eqn:Ez; [apply byte_eqb_eq in Ez; contradiction|]. reflexivity.
Qed.
Lemma resolve_slashed bf cs : bf <> [] -> Forall entry_name cs -> resolve (path_join bf (slashed cs)) = resolve bf ++ cs.
Proof. intros Hb H. rewrite resolve_join_gen, slashed_comps by auto. destruct bf; [contradiction|]. reflexivity. Qed.

Lemma entry_listed c : entry_name c -> (listed_entry c = true <-> shown_name c).
Proof.
  intros H. unfold shown_name, listed_entry. destruct c as [|b c]; [destruct H; discriminate|]. cbn [hd_error].
  destruct (Byte.eqb b ".") eqn:E; cbn.
  - apply byte_eqb_eq in E. subst. split; [discriminate|]. intros [_ X]. contradiction.
  - split; [|auto]. intros _. split; [auto|]. intros [= ->]. rewrite byte_eqb_refl in E. discriminate.
Qed.

(* ------------------------------------------------ what is below a directory *)
Lemma shown_cons f P d cs : cs <> [] -> (shown f P (d :: cs) <-> shown_name d /\ ~ has_header f (P ++ [d]) /\ shown f (P ++ [d]) cs).
Proof.
  intros Hne. split.
  - intros []. inversion_clear sh_names. split; [auto|]. split; [apply (sh_first [d] cs); auto; discriminate|].
    constructor; auto.
    + rewrite <- app_assoc. exact sh_block.
    + intros ds r -> Hd Hr. rewrite <- app_assoc. apply (sh_first (d :: ds) r); auto. discriminate.
  - intros (H1 & H2 & []). constructor; [discriminate|auto|rewrite <- app_assoc in sh_block; exact sh_block|].
    intros ds r E Hd Hr. destruct ds as [|x ds]; [contradiction|]. injection E as <- E. destruct ds as [|y ds]; [exact H2|].
    specialize (sh_first (y :: ds) r E ltac:(discriminate) Hr). rewrite <- app_assoc in sh_first. exact sh_first.
Qed.
Lemma shown_one f P d : shown f P [d] <-> shown_name d /\ has_header f (P ++ [d]).
Proof.
  split.
  - intros []. inversion_clear sh_names. auto.
  - intros [H1 H2]. constructor; auto; [discriminate|]. intros ds r E Hd Hr. destruct ds as [|x ds]; [contradiction|].
    injection E as -> E. destruct ds; [|discriminate]. cbn in E. congruence.
Qed.
Lemma tree_up f : tree f -> forall q p, fs_get f (p ++ q) <> None -> fs_get f p <> None.
Proof.
  intros T. induction q as [|c q IH] using rev_ind; intros p H; [rewrite app_nil_r in H; auto|].
  rewrite app_assoc in H. destruct (T _ _ H) as [D _]. apply IH. congruence.
Qed.
Lemma find_depth f q : fs_find f q <> None -> (length q <= fs_depth f)%nat.
Proof.
  intros H. apply find_in in H. destruct H as [n H]. induction f as [|[q' n'] f IH]; [destruct H|]. cbn [fs_depth fold_right].
  fold (fs_depth f). destruct H as [H|H]; [injection H as -> ->; lia|]. specialize (IH H). lia.
Qed.

Lemma join_nonempty p s : p <> [] -> path_join p s <> [].
Proof.
  intros Hp X. unfold path_join in X. destruct (rev p) as [|c r] eqn:E; [apply (f_equal (@rev byte)) in E; rewrite rev_involutive in E; contradiction|].
  destruct (Byte.eqb c "/"); destruct p; try contradiction; discriminate X.
Qed.

Section Listing.
  Variables (f : fs) (bf : bytes).
  Hypothesis T : tree f.
  Hypothesis Hbf : bf <> [].
  Let R := resolve bf.

  (* the names below directory R ++ cs0 *)
  Definition below (cs0 : list bytes) (L : list bytes) : Prop :=
    NoDup L /\ forall s, In s L <-> exists cs, shown f (R ++ cs0) cs /\ s = slashed (cs0 ++ cs).
  Definition below_one (cs0 : list bytes) (d : bytes) (L : list bytes) : Prop :=
    NoDup L /\ forall s, In s L <-> exists cs, shown f (R ++ cs0) (d :: cs) /\ s = slashed (cs0 ++ d :: cs).

  Lemma shown_entry P d cs : shown f P (d :: cs) -> P ++ [d] <> [lit "/"] /\ fs_get f (P ++ [d]) <> None /\ shown_name d.
  Proof.
    intros []. inversion_clear sh_names. split; [|split; auto].
    - intros E. destruct P as [|x P]; [|destruct P; discriminate]. injection E as ->. destruct H as [[_ X] _]. apply X. left. reflexivity.
    - unfold has_header in sh_block. apply (tree_up f T (cs ++ [lit "header"])). rewrite <- !app_assoc in *. exact sh_block.
  Qed.

  Lemma list_below : forall fuel cs0 acc, Forall entry_name cs0 -> (fs_depth f < length (R ++ cs0) + fuel)%nat ->
    exists L, listbigfile_r f bf (S fuel) (slashed cs0) acc = Ret (L ++ acc) /\ below cs0 L.
  Proof.
    induction fuel as [|fuel IH]; intros cs0 acc Hcs Hf; cbn [listbigfile_r].
    - assert (Hnone : forall cs, ~ shown f (R ++ cs0) cs).
      { intros cs Hs. destruct cs as [|d cs]; [apply (sh_some _ _ _ Hs eq_refl)|]. destruct (shown_entry _ _ _ Hs) as (H1 & H2 & _).
        rewrite get_find in H2 by auto. apply find_depth in H2. rewrite app_length in H2. cbn in H2. lia. }
      assert (Hb : below cs0 []).
      { split; [constructor|]. intros s. split; [intros []|]. intros (cs & Hs & _). exact (Hnone cs Hs). }
      assert (Hj : path_join bf (slashed cs0) <> []) by (apply join_nonempty; auto).
      destruct (fs_get f (R ++ cs0)) as [[|c]|] eqn:Ed.
      + destruct (scan_spec f (path_join bf (slashed cs0)) Hj) as (l & El & _ & Hl).
        { rewrite resolve_slashed by auto. exact Ed. }
        rewrite El. rewrite (resolve_slashed bf cs0 Hbf Hcs) in Hl. fold R in Hl.
        destruct l as [|d l]; [exists []; auto|]. exfalso. destruct (proj1 (Hl d) (or_introl eq_refl)) as (H1 & H2 & _).
        rewrite get_find in H2 by auto. apply find_depth in H2. rewrite app_length in H2. cbn in H2. lia.
      + unfold scandir. destruct (path_join bf (slashed cs0)) eqn:Ep; [contradiction|]. rewrite <- Ep, resolve_slashed by auto. fold R. rewrite Ed. exists []. auto.
      + unfold scandir. destruct (path_join bf (slashed cs0)) eqn:Ep; [contradiction|]. rewrite <- Ep, resolve_slashed by auto. fold R. rewrite Ed. exists []. auto.
    - assert (Hj : path_join bf (slashed cs0) <> []) by (apply join_nonempty; auto).
      assert (Hnd : fs_get f (R ++ cs0) <> Some Dir -> scandir f (path_join bf (slashed cs0)) = None /\ below cs0 []).
      { intros Hn. split.
        - unfold scandir. destruct (path_join bf (slashed cs0)) eqn:Ep; [contradiction|]. rewrite <- Ep, resolve_slashed by auto. fold R.
          destruct (fs_get f (R ++ cs0)) as [[|c]|]; [contradiction|auto|auto].
        - split; [constructor|]. intros s. split; [intros []|]. intros (cs & Hs & _). destruct cs as [|d cs]; [apply (sh_some _ _ _ Hs eq_refl)|].
          destruct (shown_entry _ _ _ Hs) as (_ & H2 & _). destruct (T _ _ H2) as [X _]. contradiction. }
      destruct (fs_get f (R ++ cs0)) as [[|c]|] eqn:Ed; [|destruct Hnd as [E B]; [discriminate|]; rewrite E; exists []; auto ..].
      clear Hnd. destruct (scan_spec f (path_join bf (slashed cs0)) Hj) as (l & El & Hnd & Hl).
      { rewrite resolve_slashed by auto. exact Ed. }
      rewrite El. rewrite (resolve_slashed bf cs0 Hbf Hcs) in Hl. fold R in Hl.
      match goal with |- context [fold_left ?F _ _] => set (step := F) end.
      assert (Hone : forall d acc, In d l -> exists L, step (Ret acc) d = Ret (L ++ acc) /\ below_one cs0 d L).
      { intros d acc0 Hd. apply Hl in Hd. destruct Hd as (H1 & H2 & H3). destruct (T _ _ H2) as [_ [He|[X1 X2]]].
        2:{ exfalso. apply H1. rewrite X1, X2. reflexivity. }
        pose proof (proj1 (entry_listed d He) H3) as Hsh.
        assert (Hcs1 : Forall entry_name (cs0 ++ [d])) by (apply Forall_app; auto).
        unfold step. cbn [bind]. rewrite join_slashed by auto. unfold path_is_block, header_path.
        rewrite resolve_join by apply header_plain. rewrite resolve_slashed by auto. fold R. unfold fopen_r.
        destruct (fs_get f ((R ++ cs0 ++ [d]) ++ [lit "header"])) as [n|] eqn:Eh.
        - exists [slashed (cs0 ++ [d])]. split; [destruct n; reflexivity|]. rewrite app_assoc in Eh. assert (Hh : has_header f ((R ++ cs0) ++ [d])) by (unfold has_header; congruence).
          split; [constructor; [intros []|constructor]|]. intros s. split.
          + intros [<-|[]]. exists []. split; [|auto]. apply shown_one. auto.
          + intros (cs & Hs & ->). left. destruct cs as [|x cs]; [reflexivity|]. exfalso. apply shown_cons in Hs; [|discriminate]. tauto.
        - rewrite app_assoc in Eh. assert (Hh : ~ has_header f ((R ++ cs0) ++ [d])) by (unfold has_header; congruence).
          destruct (IH (cs0 ++ [d]) acc0 Hcs1) as (L & EL & B1 & B2). { rewrite !app_length in *. cbn. lia. }
          exists L. split; [exact EL|]. split; [exact B1|]. intros s. rewrite B2. split.
          + intros (cs & Hs & ->). exists cs. rewrite app_assoc in Hs. split; [|rewrite <- app_assoc; reflexivity].
            apply shown_cons; [apply (sh_some _ _ _ Hs)|]. auto.
          + intros (cs & Hs & ->). destruct cs as [|x cs]; [apply shown_one in Hs; tauto|].
            exists (x :: cs). rewrite <- app_assoc. split; [|reflexivity]. rewrite app_assoc. apply shown_cons in Hs; [tauto|discriminate]. }
      assert (Hall : forall l' acc, (forall d, In d l' -> In d l) -> NoDup l' ->
        exists L, fold_left step l' (Ret acc) = Ret (L ++ acc) /\ NoDup L /\
          forall s, In s L <-> exists d cs, In d l' /\ shown f (R ++ cs0) (d :: cs) /\ s = slashed (cs0 ++ d :: cs)).
      { induction l' as [|d l' IHl]; intros acc0 Hin Hn.
        - exists []. split; [reflexivity|]. split; [constructor|]. intros s. split; [intros []|]. intros (d & cs & [] & _).
        - inversion_clear Hn. destruct (Hone d acc0 (Hin d (or_introl eq_refl))) as (L1 & E1 & N1 & B1).
          cbn [fold_left]. rewrite E1. destruct (IHl (L1 ++ acc0)) as (L2 & E2 & N2 & B2); auto.
          { intros x Hx. apply Hin. right. auto. }
          exists (L2 ++ L1). rewrite E2, app_assoc. split; [reflexivity|]. split.
          + apply nodup_app; auto. intros s H1 H2. apply B2 in H1. apply B1 in H2.
            destruct H1 as (d1 & c1 & Hd1 & S1 & ->). destruct H2 as (c2 & S2 & E).
            apply slashed_inj in E.
            * apply app_inv_head in E. injection E as -> ->. contradiction.
            * apply Forall_app. split; [auto|]. eapply Forall_impl; [|apply S1]. intros a [X _]. exact X.
            * apply Forall_app. split; [auto|]. eapply Forall_impl; [|apply S2]. intros a [X _]. exact X.
          + intros s. rewrite in_app_iff, B1, B2. split.
            * intros [(d1 & cs & H1 & H2)|(cs & H1 & H2)]; [exists d1, cs; split; [right; auto|auto]|exists d, cs; split; [left; auto|auto]].
            * intros (d1 & cs & [<-|H1] & H2 & H3); [right; eauto|left; exists d1, cs; auto]. }
      destruct (Hall l acc (fun d h => h) Hnd) as (L & E & N & B). exists L. split; [exact E|]. split; [exact N|].
      intros s. rewrite B. split.
      + intros (d & cs & _ & Hs & ->). eauto.
      + intros (cs & Hs & ->). destruct cs as [|d cs]; [exfalso; apply (sh_some _ _ _ Hs eq_refl)|]. exists d, cs. split; [|auto].
        apply Hl. destruct (shown_entry _ _ _ Hs) as (H1 & H2 & H3). split; [auto|]. split; [auto|]. apply entry_listed; auto. apply H3.
  Qed.

  Lemma list_spec : (forall cs, shown f R cs -> (length (slashed cs) <= Z.to_nat 8192)%nat) ->
    exists l, big_file_list f bf = Ret l /\ NoDup l /\ forall s, In s l <-> exists cs, shown f R cs /\ s = slashed cs.
  Proof.
    intros Hlen. destruct (list_below (S (fs_depth f)) [] [] (Forall_nil _)) as (L & E & N & B). { lia. }
    rewrite app_nil_r in E. rewrite app_nil_r in B. unfold big_file_list. change (slashed []) with (@nil byte) in E. rewrite E. cbn [bind].
    assert (Em : map strdup L = L).
    { apply map_id_ext || (rewrite <- (map_id L) at 2; apply map_ext_in). intros s Hs. apply B in Hs. destruct Hs as (cs & Hs & ->).
      apply strdup_id. apply Hlen. exact Hs. }
    rewrite Em. exists L. split; [reflexivity|]. split; [exact N|]. exact B.
  Qed.
End Listing.

(* a decidable check of [tree] *)
Definition name_check (c : bytes) : bool := negb (is_dot c) && forallb (fun b => negb (Byte.eqb b "/")) c.
Lemma tree_check f : forallb (fun '(q, _) => is_dir f (parent q) && name_check (last q [])) f = true -> tree f.
Proof.
  intros H p c Hc. destruct (path_eqb (p ++ [c]) [lit "/"]) eqn:E.
  - apply path_eqb_eq in E. destruct p as [|x p]; [|destruct p; discriminate]. injection E as ->. split; [reflexivity|]. right. auto.
  - assert (Hne : p ++ [c] <> [lit "/"]) by (intros X; rewrite (proj2 (path_eqb_eq _ _) X) in E; discriminate).
    rewrite get_find in Hc by auto. apply find_in in Hc. destruct Hc as [n Hn]. rewrite forallb_forall in H. specialize (H _ Hn). cbv beta iota in H.
    apply andb_prop in H. destruct H as [H1 H2]. unfold parent in H1. rewrite removelast_last in H1. rewrite last_last in H2.
    split; [unfold is_dir in H1; destruct (fs_get f p) as [[|]|]; auto; discriminate|]. left. apply andb_prop in H2. destruct H2 as [A B].
    split; [destruct (is_dot c); auto; discriminate|]. intros X. rewrite forallb_forall in B. specialize (B _ X). rewrite byte_eqb_refl in B. discriminate.
Qed.
