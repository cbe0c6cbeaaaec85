(* Facts about directories and listings. *)
From Coq.Strings Require Import Byte String.
From Coq Require Import List ZArith Lia Bool ZifyBool ZifyNat.
From Verif Require Import Base BaseFacts Dtype Cast Array FS Fmt Attr Block File FileSpec Spec FSFacts OpenFacts.
Import ListNotations.
Open Scope Z_scope.

(* ------------------------------------------------ components of a string *)
Definition comps (s : bytes) : path := filter (fun c => negb (is_dot c)) (split_slash [] s).
Definition root (p s : bytes) : path :=
  match p with
  | [] => match s with c :: _ => if Byte.eqb c "/" then [lit "/"] else [] | [] => [] end
  | _ => resolve p
  end.

Lemma comps_app a b : comps (a ++ slash :: b) = comps a ++ comps b.
Proof. unfold comps. rewrite split_slash_app, filter_app. reflexivity. Qed.
Lemma comps_plain c : ~ In slash c -> comps c = if is_dot c then [] else [c].
Proof. intros H. unfold comps. rewrite split_slash_plain by auto. cbn [rev app filter]. destruct (is_dot c); reflexivity. Qed.
Lemma resolve_nil s : resolve s = root [] s ++ comps s.
Proof. reflexivity. Qed.
Lemma resolve_join_gen p s : resolve (path_join p s) = root p s ++ comps s.
Proof.
  destruct p as [|c0 p0]; [reflexivity|]. unfold root. unfold path_join.
  destruct (rev (c0 :: p0)) as [|c r] eqn:E; [apply (f_equal (@length byte)) in E; rewrite rev_length in E; discriminate|].
  destruct (Byte.eqb c "/") eqn:Ec.
  - apply byte_eqb_eq in Ec. subst c. apply (f_equal (@rev byte)) in E. rewrite rev_involutive in E. cbn [rev] in E. rewrite E.
    rewrite <- app_assoc. cbn [app]. rewrite !resolve_nil, !comps_app, app_assoc. f_equal. change (comps []) with (@nil bytes).
    rewrite app_nil_r. f_equal. destruct (rev r); reflexivity.
  - cbn [app]. change (c0 :: p0 ++ "/"%byte :: s) with ((c0 :: p0) ++ slash :: s).
    rewrite !resolve_nil, comps_app, app_assoc. reflexivity.
Qed.
Lemma root_app p s t : (p <> [] \/ s <> []) -> root p (s ++ t) = root p s.
Proof. intros H. destruct p; [|reflexivity]. destruct s; [|reflexivity]. destruct H; contradiction. Qed.
Lemma prefix_app p q : prefix_of p (p ++ q).
Proof. exists q. reflexivity. Qed.
Lemma prefix_refl p : prefix_of p p.
Proof. exists []. rewrite app_nil_r. reflexivity. Qed.
Lemma prefix_trans p q r : prefix_of p q -> prefix_of q r -> prefix_of p r.
Proof. intros [a ->] [b ->]. exists (a ++ b). rewrite app_assoc. reflexivity. Qed.

(* ------------------------------------------------ directories are only added *)
Lemma new_dirs_refl f p : only_new_dirs f f p.
Proof. split; auto. intros q n H1 H2. congruence. Qed.
Lemma new_dirs_trans f g h p q r : only_new_dirs f g p -> only_new_dirs g h q -> prefix_of p r -> prefix_of q r -> only_new_dirs f h r.
Proof.
  intros [A1 A2] [B1 B2] Hp Hq. split; [auto|]. intros x n H1 H2. destruct (fs_get g x) as [m|] eqn:E.
  - rewrite (B1 x m E) in H2. injection H2 as ->. destruct (A2 x n H1 E) as [-> H]. split; auto. eapply prefix_trans; eauto.
  - destruct (B2 x n E H2) as [-> H]. split; auto. eapply prefix_trans; eauto.
Qed.
Lemma missing_proper f p : fs_get f p = None -> proper p.
Proof.
  intros H. split.
  - intros ->. discriminate H.
  - intros ->. revert H. cbn [fs_get]. rewrite bytes_eqb_refl. discriminate.
Qed.
Lemma set_new_dirs f p : fs_get f p = None -> only_new_dirs f (fs_set f p Dir) p.
Proof.
  intros H. pose proof (missing_proper _ _ H) as Hp. split.
  - intros q n Hq. rewrite fs_get_set_other; auto. congruence.
  - intros q n H1 H2. rewrite fs_get_set in H2 by auto. destruct (path_eqb p q) eqn:E; [|congruence].
    apply path_eqb_eq in E. subst. injection H2 as <-. split; auto. apply prefix_refl.
Qed.
Lemma mkdir_new f d rc f' : big_file_mkdir f d = (rc, f') ->
  only_new_dirs f f' (resolve d) /\ (rc = 0 -> fs_get f' (resolve d) <> None) /\ (rc = 0 \/ rc = -1).
Proof.
  unfold big_file_mkdir, mkdir_str. intros H.
  assert (Hf : (-1, f) = (rc, f') -> only_new_dirs f f' (resolve d) /\ (rc = 0 -> fs_get f' (resolve d) <> None) /\ (rc = 0 \/ rc = -1)).
  { intros [= <- <-]. split; [apply new_dirs_refl|]. split; [lia|auto]. }
  destruct d as [|c d]; [auto|]. unfold mkdir in H. destruct (fs_get f (resolve (c :: d))) as [n|] eqn:E.
  - injection H as <- <-. split; [apply new_dirs_refl|]. split; [congruence|auto].
  - destruct (is_dir f _); [|auto]. destruct (ends_in_dot (c :: d)); [auto|]. injection H as <- <-.
    split; [apply set_new_dirs; auto|]. split; [|auto]. intros _. rewrite fs_get_set_same; [discriminate|]. eapply missing_proper; eauto.
Qed.
Lemma join_prefix p done r : path_join p done <> [] -> prefix_of (resolve (path_join p done)) (resolve (path_join p (done ++ slash :: r))).
Proof.
  intros H. rewrite !resolve_join_gen, comps_app. rewrite root_app.
  - rewrite app_assoc. apply prefix_app.
  - destruct p; [right|left; discriminate]. exact H.
Qed.
Lemma loop_new p : forall todo f done rc f', mksubdir_loop f p done todo = (rc, f') ->
  only_new_dirs f f' (resolve (path_join p (done ++ todo))) /\ (rc = 0 \/ rc = -1).
Proof.
  induction todo as [|c todo IH]; intros f done rc f' H; cbn [mksubdir_loop] in H.
  - injection H as <- <-. split; [apply new_dirs_refl|auto].
  - replace (done ++ c :: todo) with ((done ++ [c]) ++ todo) by (rewrite <- app_assoc; reflexivity).
    destruct (Byte.eqb c "/") eqn:Ec; [|apply IH; auto]. destruct (path_join p done) as [|x d] eqn:Ed; [apply IH; auto|].
    rewrite <- Ed in H. destruct (big_file_mkdir f (path_join p done)) as [r1 f1] eqn:Em. apply mkdir_new in Em. destruct Em as (M1 & _ & _).
    apply byte_eqb_eq in Ec. subst c.
    assert (Hp : prefix_of (resolve (path_join p done)) (resolve (path_join p ((done ++ ["/"%byte]) ++ todo)))).
    { rewrite <- app_assoc. cbn [app]. apply join_prefix. congruence. }
    destruct (r1 =? 0).
    + apply IH in H. destruct H as [H Hr]. split; [|auto]. eapply new_dirs_trans; [exact M1|exact H|exact Hp|apply prefix_refl].
    + injection H as <- <-. split; [|auto]. eapply new_dirs_trans; [exact M1|apply (new_dirs_refl _ (resolve (path_join p done)))|exact Hp|exact Hp].
Qed.
Lemma mksubdir_new f p s rc f' : (length s <= Z.to_nat 8192)%nat -> mksubdir_r f p s = (rc, f') ->
  only_new_dirs f f' (resolve (path_join p s)) /\ (rc = 0 \/ rc = -1).
Proof.
  intros Hl. unfold mksubdir_r. rewrite strdup_id by auto. destruct (mksubdir_loop f p [] s) as [r1 f1] eqn:E. apply loop_new in E.
  cbn [app] in E. destruct E as [E Er]. destruct (r1 =? 0).
  - intros H. apply mkdir_new in H. destruct H as (M & _ & Hr). split; auto. eapply new_dirs_trans; [exact E|exact M|apply prefix_refl|apply prefix_refl].
  - intros [= <- <-]. auto.
Qed.

(* ------------------------------------------------ repeating *)
Lemma mkdir_again f d f' g : big_file_mkdir f d = (0, f') -> (forall q, fs_get f' q <> None -> fs_get g q <> None) -> big_file_mkdir g d = (0, g).
Proof.
  intros H Hg. pose proof (mkdir_new _ _ _ _ H) as (_ & M & _). specialize (Hg _ (M eq_refl)).
  destruct d as [|c d]; [cbn in H; discriminate|]. unfold big_file_mkdir, mkdir_str, mkdir.
  destruct (fs_get g (resolve (c :: d))); [reflexivity|congruence].
Qed.
Lemma loop_again p : forall todo f done f' g, mksubdir_loop f p done todo = (0, f') ->
  (forall q, fs_get f' q <> None -> fs_get g q <> None) -> mksubdir_loop g p done todo = (0, g).
Proof.
  induction todo as [|c todo IH]; intros f done f' g H Hg; cbn [mksubdir_loop] in *; [reflexivity|].
  destruct (Byte.eqb c "/"); [|eapply IH; eauto]. destruct (path_join p done) as [|x d] eqn:Ed; [eapply IH; eauto|]. rewrite <- Ed in *.
  destruct (big_file_mkdir f (path_join p done)) as [r1 f1] eqn:Em. destruct (r1 =? 0) eqn:Er; [|discriminate H].
  assert (r1 = 0) by lia. subst r1. pose proof (loop_new _ _ _ _ _ _ H) as [[K _] _].
  rewrite (mkdir_again _ _ _ g Em).
  - change (0 =? 0) with true. cbv iota. eapply IH; eauto.
  - intros q Hq. apply Hg. destruct (fs_get f1 q) eqn:E; [|congruence]. rewrite (K _ _ E). discriminate.
Qed.
Lemma mksubdir_again f p s f' : mksubdir_r f p s = (0, f') -> mksubdir_r f' p s = (0, f').
Proof.
  unfold mksubdir_r. destruct (mksubdir_loop f p [] (strdup s)) as [r1 f1] eqn:E. destruct (r1 =? 0) eqn:Er; [|discriminate].
  assert (r1 = 0) by lia. subst r1. intros H. pose proof (mkdir_new _ _ _ _ H) as ((K & _) & _).
  rewrite (loop_again p _ _ _ _ f' E).
  - change (0 =? 0) with true. cbv iota. eapply mkdir_again; eauto.
  - intros q Hq. destruct (fs_get f1 q) eqn:E1; [|congruence]. rewrite (K _ _ E1). discriminate.
Qed.

(* ------------------------------------------------ success *)
Record walking (f : fs) (p done : bytes) (s : bytes) (L : path) (cur : bytes) : Prop := {
  wk_dir : fs_get f L = Some Dir;
  wk_cur : ~ In slash cur;
  wk_path : forall t, root p s ++ comps (done ++ t) = L ++ comps (cur ++ t);
  wk_last : forall t, exists X, split_slash [] (path_join p (done ++ t)) = X ++ split_slash [] (cur ++ t)
}.
Lemma walk_mkdir f p done s L cur todo : walking f p done s L cur -> s = done ++ todo -> path_join p done <> [] ->
  (forall c, fs_get f (L ++ comps cur) <> Some (File c)) ->
  exists f', big_file_mkdir f (path_join p done) = (0, f') /\ fs_get f' (L ++ comps cur) = Some Dir.
Proof.
  intros [W1 W2 W3 W4] Hs Hd Hnf.
  assert (Er : resolve (path_join p done) = L ++ comps cur).
  { rewrite resolve_join_gen. specialize (W3 []). rewrite !app_nil_r in W3. rewrite <- W3. f_equal. subst s. symmetry. apply root_app.
    destruct p; [right; exact Hd|left; discriminate]. }
  unfold big_file_mkdir, mkdir_str. destruct (path_join p done) as [|x d] eqn:Ed; [contradiction|]. rewrite <- Ed in *. unfold mkdir. rewrite Er.
  destruct (fs_get f (L ++ comps cur)) as [[|c]|] eqn:E.
  - exists f. auto.
  - exfalso. exact (Hnf c eq_refl).
  - rewrite comps_plain in * by auto. destruct (is_dot cur) eqn:Edot; [rewrite app_nil_r in E; congruence|].
    unfold parent. rewrite removelast_last. unfold is_dir. rewrite W1.
    assert (Hend : ends_in_dot (path_join p done) = false).
    { unfold ends_in_dot. destruct (W4 []) as (X & HX). rewrite !app_nil_r in HX. rewrite HX, split_slash_plain by auto.
      rewrite rev_app_distr. cbn [rev app filter]. destruct cur; [discriminate Edot|]. exact Edot. }
    rewrite Hend. eexists. split; [reflexivity|]. apply fs_get_set_same. eapply missing_proper; eauto.
Qed.
Lemma walk_char f p done s L cur c : walking f p done s L cur -> c <> slash -> walking f p (done ++ [c]) s L (cur ++ [c]).
Proof.
  intros [W1 W2 W3 W4] Hc. constructor; auto.
  - rewrite in_app_iff. intros [H|[H|[]]]; auto.
  - intros t. rewrite <- !app_assoc. apply (W3 (c :: t)).
  - intros t. rewrite <- !app_assoc. apply (W4 (c :: t)).
Qed.
Lemma walk_slash f f' p done s L cur : walking f p done s L cur -> fs_get f' (L ++ comps cur) = Some Dir ->
  walking f' p (done ++ [slash]) s (L ++ comps cur) [].
Proof.
  intros [W1 W2 W3 W4] Hd. constructor; auto.
  - intros t. rewrite <- app_assoc. cbn [app]. rewrite (W3 (slash :: t)), comps_app, app_assoc. reflexivity.
  - intros t. destruct (W4 (slash :: t)) as (X & HX). rewrite <- app_assoc. cbn [app]. rewrite HX, split_slash_app.
    exists (X ++ split_slash [] cur). rewrite app_assoc. reflexivity.
Qed.
Lemma prefix_cases (q a b : path) : prefix_of q (a ++ b) -> prefix_of q a \/ prefix_of a q.
Proof.
  revert q. induction a as [|x a IH]; intros q [r H].
  - right. exists q. reflexivity.
  - destruct q as [|y q]; [left; exists (x :: a); reflexivity|]. cbn in H. injection H as Hx H. subst y.
    destruct (IH q (ex_intro _ r H)) as [[u ->]|[u ->]]; [left; exists u; reflexivity|right; exists u; reflexivity].
Qed.
Lemma walk_all p : forall todo f done s L cur, walking f p done s L cur -> s = done ++ todo -> path_join p s <> [] ->
  way_free f (resolve (path_join p s)) -> way_made f L ->
  exists f1 f', mksubdir_loop f p done todo = (0, f1) /\ big_file_mkdir f1 (path_join p s) = (0, f') /\
    way_made f' (resolve (path_join p s)).
Proof.
  induction todo as [|c todo IH]; intros f done s L cur W Hs Hne Hfree Hmade; cbn [mksubdir_loop].
  - rewrite app_nil_r in Hs. subst done.
    assert (EL : resolve (path_join p s) = L ++ comps cur).
    { rewrite resolve_join_gen. pose proof (wk_path _ _ _ _ _ _ W []) as H. rewrite !app_nil_r in H. exact H. }
    destruct (walk_mkdir f p s s L cur [] W) as (f' & E & D); auto.
    { rewrite app_nil_r. auto. } { intros c. rewrite <- EL. apply Hfree. apply prefix_refl. }
    exists f, f'. split; [reflexivity|]. split; [exact E|]. rewrite EL. intros q Hq.
    destruct (prefix_cases _ _ _ Hq) as [H|H].
    + apply mkdir_new in E. destruct E as ((K & _) & _). apply K. apply Hmade. exact H.
    + destruct H as [u ->]. destruct Hq as [v Hv]. rewrite <- app_assoc in Hv. apply app_inv_head in Hv.
      rewrite comps_plain in * by apply W. destruct (is_dot cur).
      * destruct u; [|discriminate]. rewrite app_nil_r in *. exact D.
      * destruct u as [|y u]; [rewrite app_nil_r; apply mkdir_new in E; destruct E as ((K & _) & _); apply K; apply W|].
        injection Hv as -> Hv. destruct u; [|discriminate Hv]. exact D.
  - destruct (Byte.eqb c "/") eqn:Ec.
    + apply byte_eqb_eq in Ec. subst c. change "/"%byte with slash in *.
      assert (HR : prefix_of (L ++ comps cur) (resolve (path_join p s))).
      { rewrite resolve_join_gen. subst s. pose proof (wk_path _ _ _ _ _ _ W (slash :: todo)) as H. rewrite H, comps_app, app_assoc. apply prefix_app. }
      assert (Hmade' : forall f', (forall q n, fs_get f q = Some n -> fs_get f' q = Some n) -> fs_get f' (L ++ comps cur) = Some Dir -> way_made f' (L ++ comps cur)).
      { intros f' K D q Hq. destruct (prefix_cases _ _ _ Hq) as [H|H]; [apply K, Hmade, H|].
        destruct H as [u ->]. destruct Hq as [v Hv]. rewrite <- app_assoc in Hv. apply app_inv_head in Hv.
        rewrite comps_plain in * by apply W. destruct (is_dot cur).
        * destruct u; [|discriminate]. rewrite app_nil_r in *. exact D.
        * destruct u as [|y u]; [rewrite app_nil_r; apply K; apply W|].
          injection Hv as -> Hv. destruct u; [|discriminate Hv]. exact D. }
      destruct (path_join p done) as [|x d] eqn:Ed.
      * assert (Hpd : p = [] /\ done = []).
        { destruct p as [|p0 p]; [split; [auto|exact Ed]|]. unfold path_join in Ed.
          destruct (rev (p0 :: p)) as [|z zs] eqn:Er; [apply (f_equal (@length byte)) in Er; rewrite rev_length in Er; discriminate|].
          destruct (Byte.eqb z "/"); discriminate Ed. }
        destruct Hpd as [-> ->].
        assert (Dr : fs_get f (L ++ comps cur) = Some Dir).
        { pose proof (wk_path _ _ _ _ _ _ W []) as H. rewrite !app_nil_r in H. rewrite <- H. subst s. cbn. auto. }
        eapply IH; [eapply walk_slash; [exact W|exact Dr]|rewrite <- app_assoc; exact Hs|exact Hne|exact Hfree|].
        apply Hmade'; auto.
      * rewrite <- Ed.
        destruct (walk_mkdir f p done s L cur (slash :: todo) W Hs) as (f1 & E & D).
        { congruence. } { intros c. apply Hfree. exact HR. }
        rewrite E. change (0 =? 0) with true. cbv iota. apply mkdir_new in E. destruct E as ((K1 & K2) & _).
        eapply IH; [eapply walk_slash; [exact W|exact D]|rewrite <- app_assoc; exact Hs|exact Hne| |].
        -- intros q c Hq Hc. destruct (fs_get f q) as [n|] eqn:En.
           ++ rewrite (K1 _ _ En) in Hc. injection Hc as ->. exact (Hfree q c Hq En).
           ++ destruct (K2 _ _ En Hc) as [X _]. discriminate X.
        -- apply Hmade'; auto.
    + eapply IH; [apply walk_char; [exact W|intros ->; rewrite byte_eqb_refl in Ec; discriminate]|rewrite <- app_assoc; exact Hs|exact Hne|exact Hfree|exact Hmade].
Qed.
Lemma mksubdir_succeeds f p s : (length s <= Z.to_nat 8192)%nat -> path_join p s <> [] -> way_made f (resolve p) ->
  way_free f (resolve (path_join p s)) ->
  exists f', mksubdir_r f p s = (0, f') /\ way_made f' (resolve (path_join p s)).
Proof.
  intros Hl Hne Hp Hfree. unfold mksubdir_r. rewrite strdup_id by auto.
  assert (Hroot : way_made f (root p s)).
  { destruct p as [|c0 p]; [|exact Hp]. cbn [root]. intros q [r Hq]. destruct s as [|c s]; [destruct q; [reflexivity|discriminate]|].
    destruct (Byte.eqb c "/"); [|destruct q; [reflexivity|discriminate]].
    destruct q as [|y q]; [reflexivity|]. injection Hq as <- Hq. destruct q; [reflexivity|discriminate]. }
  destruct (walk_all p s f [] s (root p s) []) as (f1 & f' & E1 & E2 & M); auto.
  { constructor; auto.
    - apply Hroot. apply prefix_refl.
    - intros t. cbn [app]. unfold path_join. destruct (rev p) as [|c r] eqn:Er; [exists []; reflexivity|].
      destruct (Byte.eqb c "/") eqn:Ec.
      + apply byte_eqb_eq in Ec. subst c. apply (f_equal (@rev byte)) in Er. rewrite rev_involutive in Er. cbn [rev] in Er. rewrite Er, <- app_assoc.
        change ([ "/"%byte ] ++ t) with (slash :: t). rewrite split_slash_app. eauto.
      + change (p ++ ["/"%byte] ++ t) with (p ++ slash :: t). rewrite split_slash_app. eauto. }
  rewrite E1. change (0 =? 0) with true. cbv iota. exists f'. auto.
Qed.
