(* Handing out handles, and collective open, create, grow and flush. *)
From Coq.Strings Require Import Byte String.
From Coq Require Import List ZArith Lia Bool ZifyBool ZifyNat.
From Verif Require Import Base BaseFacts Dtype Cast Array FS Fmt Attr Block Pack Spec AttrSpec PackSpec DtypeFacts SeekFacts FSFacts ArrayFacts ConvFacts WriteFacts ReadFacts
  OpenFacts AttrFacts PackFacts FrameFacts Par MpiSpec ParFacts SyncFacts VecFacts CollFacts Mpi SegFacts StepFacts HistSpec HistFacts AggFacts LoopFacts MpiFacts LeadFacts AgreeFacts.
Import ListNotations.
Open Scope Z_scope.
Ltac Zify.zify_post_hook ::= Z.div_mod_to_equations.

(* ------------------------------------------------- actions on a few paths *)
(* o reads and writes the paths in A only, and makes no directories. *)
Definition foot (A : path -> Prop) (o : act) : Prop := forall f r f', o f = Ret (r, f') ->
  (forall p, ~ A p -> fs_get f' p = fs_get f p) /\ (forall p, is_dir f' p = is_dir f p) /\
  forall g, (forall p, A p -> fs_get g p = fs_get f p) -> (forall p, is_dir g p = is_dir f p) ->
    exists g', o g = Ret (r, g') /\ forall p, A p -> fs_get g' p = fs_get f' p.

Lemma fs_eq_is_dir f g p : fs_eq f g -> is_dir g p = is_dir f p.
Proof. intros E. unfold is_dir. rewrite (E p). reflexivity. Qed.
Lemma foot_respects A o : (forall p, A p \/ ~ A p) -> foot A o -> respects fs_eq o.
Proof.
  intros D H f g r f' E Ho. destruct (H f r f' Ho) as (H1 & H2 & H3). destruct (H3 g) as (g' & G1 & G2); [intros p _; symmetry; apply E|intros p; apply fs_eq_is_dir; exact E|].
  exists g'. split; [exact G1|]. intros p. destruct (D p) as [Hp|Hp]; [symmetry; apply G2; exact Hp|].
  rewrite H1 by auto. destruct (H g r g' G1) as (X & _). rewrite X by auto. apply E.
Qed.
Lemma foot_commute A B o1 o2 : (forall p, A p \/ ~ A p) -> (forall p, B p \/ ~ B p) -> (forall p, A p -> B p -> False) -> foot A o1 -> foot B o2 -> commute fs_eq o1 o2.
Proof.
  intros DA DB D H1 H2. split.
  - intros f r1 f1 r2 f2 E1 E2. destruct (H1 _ _ _ E1) as (A1 & A2 & A3). destruct (H2 _ _ _ E2) as (B1 & B2 & B3).
    destruct (A3 f2) as (g1 & G1 & G2); [intros p Hp; apply B1; intros X; eapply D; eauto|exact B2|].
    destruct (B3 f1) as (g2 & K1 & K2); [intros p Hp; apply A1; intros X; eapply D; eauto|exact A2|].
    exists g1, g2. split; [exact K1|]. split; [exact G1|]. intros p. destruct (H1 _ _ _ G1) as (X1 & _). destruct (H2 _ _ _ K1) as (X2 & _).
    destruct (DA p) as [Hp|Hp].
    + rewrite G2 by auto. rewrite X2 by (intros X; eapply D; eauto). reflexivity.
    + rewrite X1 by auto. destruct (DB p) as [Hq|Hq]; [rewrite K2 by auto; reflexivity|]. rewrite X2, A1, B1 by auto. reflexivity.
  - intros f r2 f2 [r1 f1] E2 E1. destruct (H2 _ _ _ E2) as (B1 & B2 & _). destruct (H1 _ _ _ E1) as (_ & _ & A3).
    destruct (A3 f) as (g & G & _); [intros p Hp; symmetry; apply B1; intros X; eapply D; eauto|intros p; symmetry; apply B2|]. eauto.
Qed.

Lemma open_w_cases f p f' : fopen_w f p = Some f' -> f' = fs_set f p (File []) /\ is_dir f p = false /\ (is_dir f (parent p) = true \/ exists c, fs_get f p = Some (File c)).
Proof.
  unfold fopen_w, is_dir at 2. destruct (fs_get f p) as [[|c]|] eqn:E; [discriminate|intros [= <-]; eauto|]. destruct (is_dir f (parent p)) eqn:D; [|discriminate]. intros [= <-]. auto.
Qed.
Lemma set_is_dir f p c : is_dir f p = false -> forall q, is_dir (fs_set f p (File c)) q = is_dir f q.
Proof.
  intros H q. unfold is_dir. destruct (path_eq_dec q p) as [->|Hn]; [|rewrite fs_get_set_other by auto; reflexivity].
  assert (P : proper p). { split; intros ->; unfold is_dir in H; cbn in H; discriminate. }
  rewrite fs_get_set_same by exact P. symmetry. exact H.
Qed.
Lemma open_w_dir f p f' : fopen_w f p = Some f' -> forall q, is_dir f' q = is_dir f q.
Proof. intros H. destruct (open_w_cases _ _ _ H) as (-> & D & _). apply set_is_dir. exact D. Qed.
Lemma open_w_proper f p f' : fopen_w f p = Some f' -> proper p.
Proof. intros H. destruct (open_w_cases _ _ _ H) as (_ & D & _). split; intros ->; unfold is_dir in D; cbn in D; discriminate. Qed.
Lemma open_w_get f p f' : fopen_w f p = Some f' -> forall q, fs_get f' q = if path_eqb p q then Some (File []) else fs_get f q.
Proof. intros H q. destruct (open_w_cases _ _ _ H) as (-> & _). apply fs_get_set. eapply open_w_proper; eauto. Qed.
Lemma open_w_same f g p : fs_get g p = fs_get f p -> (forall q, is_dir g q = is_dir f q) -> fopen_w g p = None <-> fopen_w f p = None.
Proof.
  intros E D. unfold fopen_w. rewrite E, D. destruct (fs_get f p) as [[|c]|]; [tauto|split; discriminate|]. destruct (is_dir f (parent p)); [split; discriminate|tauto].
Qed.

Lemma truncate_foot p : foot (eq p) (op_truncate p).
Proof.
  intros f r f' H. unfold op_truncate in *. destruct (fopen_w f p) as [f1|] eqn:E; injection H as <- <-.
  - split; [intros q Hq; rewrite (open_w_get _ _ _ E); destruct (path_eqb p q) eqn:X; [apply path_eqb_eq in X; contradiction|reflexivity]|]. split; [apply (open_w_dir _ _ _ E)|].
    intros g G1 G2. destruct (fopen_w g p) as [g1|] eqn:E2; [|apply (open_w_same f g p) in E2; auto; congruence]. eexists. split; [reflexivity|]. intros q <-. rewrite (open_w_get _ _ _ E), (open_w_get _ _ _ E2), path_eqb_refl. reflexivity.
  - split; [reflexivity|]. split; [reflexivity|]. intros g G1 G2. destruct (fopen_w g p) as [g1|] eqn:E2; [|eexists; split; [reflexivity|intros q <-; auto]].
    exfalso. apply (open_w_same f g p) in E; auto. congruence.
Qed.

Definition meta_path (base : bytes) (p : path) : Prop := p = header_path base \/ p = attr2_path base.
Lemma meta_dec base p : meta_path base p \/ ~ meta_path base p.
Proof. unfold meta_path. destruct (path_eq_dec p (header_path base)); [auto|]. destruct (path_eq_dec p (attr2_path base)); [auto|]. right. tauto. Qed.

(* A flush as a whole. *)
Definition flush_like (base : bytes) {B} (k : fs -> out (B * fs)) : Prop := forall f r f', k f = Ret (r, f') ->
  (forall p, ~ meta_path base p -> fs_get f' p = fs_get f p) /\ (forall p, is_dir f' p = is_dir f p) /\
  forall g, (forall p, meta_path base p -> fs_get g p = fs_get f p) -> (forall p, is_dir g p = is_dir f p) ->
    exists g', k g = Ret (r, g') /\ forall p, meta_path base p -> fs_get g' p = fs_get f' p.

Lemma flush_foot e b : flush_like (b_base b) (fun f => bind (big_block_flush e f b) (fun '(rc, f', b') => Ret ((rc, b'), f'))).
Proof.
  intros f r f' H. apply bind_ret in H. destruct H as ([[rc f2] b2] & H & X). injection X as <- ->.
  unfold big_block_flush in H. apply bind_ret in H. destruct H as ([[rc1 f1] b1] & H1 & H2).
  (* first half *)
  assert (F1 : (forall p, ~ meta_path (b_base b) p -> fs_get f1 p = fs_get f p) /\ (forall p, is_dir f1 p = is_dir f p) /\ b_base b1 = b_base b /\
    forall g, (forall p, meta_path (b_base b) p -> fs_get g p = fs_get f p) -> (forall p, is_dir g p = is_dir f p) ->
      exists g1, (if b_dirty b then match fopen_w g (header_path (b_base b)) with None => Ret (-1, g, b) | Some f' => bind (header_image b) (fun img => Ret (0, fs_set f' (header_path (b_base b)) (File img), set_bdirty b false)) end else Ret (0, g, b)) = Ret (rc1, g1, b1) /\
        (forall p, meta_path (b_base b) p -> fs_get g1 p = fs_get f1 p) /\ (forall p, is_dir g1 p = is_dir f1 p)).
  { destruct (b_dirty b).
    - destruct (fopen_w f (header_path (b_base b))) as [fa|] eqn:E.
      + apply bind_ret in H1. destruct H1 as (img & Ei & H1). injection H1 as <- <- <-. pose proof (open_w_proper _ _ _ E) as P. destruct (open_w_cases _ _ _ E) as (_ & D & _).
        assert (G : forall h ha, fopen_w h (header_path (b_base b)) = Some ha -> forall q, fs_get (fs_set ha (header_path (b_base b)) (File img)) q = if path_eqb (header_path (b_base b)) q then Some (File img) else fs_get h q).
        { intros h ha Eh q. rewrite fs_get_set by exact P. destruct (path_eqb _ q) eqn:X; [reflexivity|]. rewrite (open_w_get _ _ _ Eh), X. reflexivity. }
        assert (Gd : forall h ha, fopen_w h (header_path (b_base b)) = Some ha -> forall q, is_dir (fs_set ha (header_path (b_base b)) (File img)) q = is_dir h q).
        { intros h ha Eh q. rewrite set_is_dir; [apply (open_w_dir _ _ _ Eh)|]. rewrite (open_w_dir _ _ _ Eh). apply (open_w_cases _ _ _ Eh). }
        split; [|split; [apply (Gd f fa E)|split; [reflexivity|]]].
        * intros p Hp. rewrite (G f fa E). destruct (path_eqb _ p) eqn:X; [|reflexivity]. apply path_eqb_eq in X. exfalso. apply Hp. left. auto.
        * intros g G1 G2. destruct (fopen_w g (header_path (b_base b))) as [ga|] eqn:E2; [|apply (open_w_same f g) in E2; [congruence|apply G1; left; auto|exact G2]].
          rewrite Ei. cbn [bind]. eexists. split; [reflexivity|]. split; [intros p Hp; rewrite (G f fa E), (G g ga E2); destruct (path_eqb _ p); auto|]. intros p. rewrite (Gd f fa E), (Gd g ga E2). apply G2.
      + injection H1 as <- <- <-. repeat (split; [reflexivity|]). intros g G1 G2. destruct (fopen_w g (header_path (b_base b))) as [ga|] eqn:E2.
        * exfalso. apply (open_w_same f g) in E; [congruence|apply G1; left; auto|exact G2].
        * exists g. split; [reflexivity|]. split; auto.
    - injection H1 as <- <- <-. repeat (split; [reflexivity|]). intros g G1 G2. exists g. split; [reflexivity|]. auto. }
  destruct F1 as (K1 & K2 & KB & K3). unfold big_block_flush.
  destruct (negb (rc1 =? 0)) eqn:En.
  { injection H2 as <- <- <-. split; [exact K1|]. split; [exact K2|]. intros g G1 G2. destruct (K3 g G1 G2) as (g1 & E & L1 & L2). rewrite E. cbn [bind]. rewrite En. cbn [bind]. eauto. }
  destruct (as_dirty (b_attrset b1)) eqn:Ed.
  2: { injection H2 as <- <- <-. split; [exact K1|]. split; [exact K2|]. intros g G1 G2. destruct (K3 g G1 G2) as (g1 & E & L1 & L2). rewrite E. cbn [bind]. rewrite En, Ed. cbn [bind]. eauto. }
  destruct (fopen_w f1 (attr2_path (b_base b1))) as [f3|] eqn:E.
  - apply bind_ret in H2. destruct H2 as ([img s'] & Ea & H2). injection H2 as <- <- <-. pose proof (open_w_proper _ _ _ E) as P. rewrite KB in *.
    assert (G : forall h ha, fopen_w h (attr2_path (b_base b)) = Some ha -> forall q, fs_get (fs_set ha (attr2_path (b_base b)) (File img)) q = if path_eqb (attr2_path (b_base b)) q then Some (File img) else fs_get h q).
    { intros h ha Eh q. rewrite fs_get_set by exact P. destruct (path_eqb _ q) eqn:X; [reflexivity|]. rewrite (open_w_get _ _ _ Eh), X. reflexivity. }
    assert (Gd : forall h ha, fopen_w h (attr2_path (b_base b)) = Some ha -> forall q, is_dir (fs_set ha (attr2_path (b_base b)) (File img)) q = is_dir h q).
    { intros h ha Eh q. rewrite set_is_dir; [apply (open_w_dir _ _ _ Eh)|]. rewrite (open_w_dir _ _ _ Eh). apply (open_w_cases _ _ _ Eh). }
    split; [|split].
    + intros p Hp. rewrite (G f1 f3 E). destruct (path_eqb _ p) eqn:X; [|apply K1; exact Hp]. apply path_eqb_eq in X. exfalso. apply Hp. right. auto.
    + intros p. rewrite (Gd f1 f3 E). apply K2.
    + intros g G1 G2. destruct (K3 g G1 G2) as (g1 & Eg & L1 & L2). rewrite Eg. cbn [bind]. rewrite En, Ed, KB.
      destruct (fopen_w g1 (attr2_path (b_base b))) as [ga|] eqn:E2; [|apply (open_w_same f1 g1) in E2; [congruence|apply L1; right; auto|exact L2]].
      rewrite Ea. cbn [bind]. eexists. split; [reflexivity|]. intros p Hp. rewrite (G f1 f3 E), (G g1 ga E2). destruct (path_eqb _ p); auto.
  - injection H2 as <- <- <-. split; [exact K1|]. split; [exact K2|]. intros g G1 G2. destruct (K3 g G1 G2) as (g1 & Eg & L1 & L2). rewrite Eg. cbn [bind]. rewrite En, Ed.
    destruct (fopen_w g1 (attr2_path (b_base b1))) as [ga|] eqn:E2; [exfalso; apply (open_w_same f1 g1) in E; [congruence|apply L1; right; rewrite KB; auto|exact L2]|]. cbn [bind]. eauto.
Qed.

Lemma op_flush_foot e b : foot (meta_path (b_base b)) (op_flush e b).
Proof.
  intros f r f' H. unfold op_flush in H. apply bind_ret in H. destruct H as ([[rc f2] b2] & H & X). injection X as <- <-.
  destruct (flush_foot e b f (rc, b2) f2) as (A & B & D); [rewrite H; reflexivity|]. split; [exact A|]. split; [exact B|]. intros g G1 G2. destruct (D g G1 G2) as (g' & E & G).
  exists g'. split; [|exact G]. unfold op_flush. apply bind_ret in E. destruct E as ([[rc3 f3] b3] & E & X). injection X as -> -> ->. rewrite E. reflexivity.
Qed.

Lemma create_foot e base dtype nmemb Nfile fsize : foot (meta_path (strdup base)) (op_create_internal e base dtype nmemb Nfile fsize).
Proof.
  assert (Triv : forall r : val, foot (meta_path (strdup base)) (fun f => Ret (r, f))).
  { intros r f r' f' [= <- <-]. split; [reflexivity|]. split; [reflexivity|]. intros g G1 G2. eauto. }
  assert (FL : forall b0, b_base b0 = strdup base -> foot (meta_path (strdup base)) (fun f => bind (bind (big_block_flush e f b0) (fun '(rc, f', b') => if negb (rc =? 0) then Ret (f', None) else Ret (f', Some (set_bdirty b' false)))) (fun r => Ret (match snd r with Some b => VCode 0 b | None => VNone end, fst r)))).
  { intros b0 Hb f r f' H. apply bind_ret in H. destruct H as ([f1 ob] & H & X). apply bind_ret in H. destruct H as ([[rc f2] b2] & H & Y). injection X as <- <-. cbn [fst snd] in *.
    destruct (flush_foot e b0 f (rc, b2) f2) as (A & B & D); [rewrite H; reflexivity|]. rewrite Hb in A, D.
    assert (f1 = f2) by (destruct (negb (rc =? 0)); injection Y; auto). subst f2. split; [exact A|]. split; [exact B|]. intros g G1 G2. destruct (D g G1 G2) as (g' & E & G).
    apply bind_ret in E. destruct E as ([[rc3 f3] b3] & E & X). injection X as -> -> ->. exists g'. split; [|exact G]. rewrite E. cbn [bind]. destruct (negb (rc =? 0)); injection Y as <-; reflexivity. }
  intros f. unfold op_create_internal, pack_op, create_internal.
  destruct (has_blank base); [intros r f' H; apply (Triv VNone f r f' H)|].
  destruct (is_meta (strdup base)); [intros r f' H; refine (FL _ _ f r f' H); reflexivity|].
  destruct (match dtype with None => _ | Some _ => _ end) as [[dt nf] fsz].
  destruct (nf <? -1); [intros r f' H; apply (Triv VNone f r f' H)|].
  destruct ((nf <? 0) || (zlen fsz <? nf)); [intros r f' H; discriminate H|].
  intros r f' H. refine (FL _ _ f r f' H). reflexivity.
Qed.

(* ------------------------------------------------------- truncating files *)
Definition can_make (f : fs) (base : bytes) (q : Z) : Prop := fopen_w f (data_path base q) <> None.

Lemma can_make_after f p f1 base q : fopen_w f p = Some f1 -> can_make f1 base q <-> can_make f base q.
Proof.
  intros H. unfold can_make, fopen_w. rewrite (open_w_get _ _ _ H), (open_w_dir _ _ _ H). destruct (path_eqb p (data_path base q)) eqn:E.
  2: { destruct (fs_get f (data_path base q)) as [[|c]|]; [tauto|split; discriminate|]. destruct (is_dir f (parent (data_path base q))); [split; discriminate|tauto]. }
  apply path_eqb_eq in E. rewrite <- E. unfold fopen_w in H. destruct (fs_get f p) as [[|c]|]; [discriminate|split; discriminate|]. destruct (is_dir f (parent p)); [split; discriminate|discriminate].
Qed.
Lemma truncate_spec base n : forall f i rc f', truncate_files f base i n = (rc, f') ->
  (rc = 0 \/ rc = -1) /\ (rc = 0 <-> forall q, i <= q < i + Z.of_nat n -> can_make f base q) /\ (forall q, can_make f' base q <-> can_make f base q).
Proof.
  induction n as [|n IH]; intros f i rc f' H; cbn [truncate_files] in H.
  - injection H as <- <-. split; [auto|]. split; [|reflexivity]. split; [intros _ q Hq; lia|reflexivity].
  - destruct (fopen_w f (data_path base i)) as [f1|] eqn:E.
    + destruct (IH _ _ _ _ H) as (A & B & D). split; [exact A|]. split.
      * rewrite B. split; intros X q Hq.
        -- destruct (Z.eq_dec q i) as [->|Hn]; [unfold can_make; congruence|]. apply (can_make_after _ _ _ _ _ E). apply X. lia.
        -- apply (can_make_after _ _ _ _ _ E). apply X. lia.
      * intros q. rewrite D. apply (can_make_after _ _ _ _ _ E).
    + injection H as <- <-. split; [auto|]. split; [|reflexivity]. split; [lia|]. intros X. exfalso. apply (X i); [lia|]. exact E.
Qed.
Lemma truncate_app base a : forall b f i, truncate_files f base i (a + b) =
  let '(rc, f1) := truncate_files f base i a in if rc =? 0 then truncate_files f1 base (i + Z.of_nat a) b else (rc, f1).
Proof.
  induction a as [|a IH]; intros b f i; cbn [plus truncate_files]; [rewrite Z.add_0_r; reflexivity|].
  destruct (fopen_w f (data_path base i)) as [f1|]; [|reflexivity]. rewrite IH. destruct (truncate_files f1 base (i + 1) a) as [rc f2]. replace (i + 1 + Z.of_nat a) with (i + Z.of_nat (S a)) by lia. reflexivity.
Qed.
Lemma truncate_eq base n : forall f g i rc f', fs_eq f g -> truncate_files f base i n = (rc, f') -> exists g', truncate_files g base i n = (rc, g') /\ fs_eq f' g'.
Proof.
  induction n as [|n IH]; intros f g i rc f' E H; cbn [truncate_files] in *; [injection H as <- <-; eauto|].
  assert (S : fopen_w g (data_path base i) = None <-> fopen_w f (data_path base i) = None) by (apply open_w_same; [symmetry; apply E|intros q; apply fs_eq_is_dir; exact E]).
  destruct (fopen_w f (data_path base i)) as [f1|] eqn:Ef, (fopen_w g (data_path base i)) as [g1|] eqn:Eg; try (exfalso; destruct S as [S1 S2]; (discriminate (S1 eq_refl) || discriminate (S2 eq_refl))).
  - eapply IH; [|exact H]. intros p. rewrite (open_w_get _ _ _ Ef), (open_w_get _ _ _ Eg). destruct (path_eqb _ p); auto.
  - injection H as <- <-. eauto.
Qed.

Section All.
Variable N : nat.
Hypothesis HN : (0 < N)%nat.
Notation all := (fun _ : nat => true).

Lemma rank_world i : (i < N)%nat -> rank_in (world N) i = i.
Proof. intros Hi. unfold rank_in. cbn [c_mem world]. rewrite index_seq by lia. lia. Qed.
Lemma world_all : family N all (fun _ => world N).
Proof. apply world_family. exact HN. Qed.

(* rank 0 sends its handle *)
Lemma does_broadcast junk e nbase b img b' f (Q : list (nat * act) -> (nat -> block) -> fs -> Prop) :
  block_pack (junk 0%nat) (e_me (e 0%nat)) (b 0%nat) = Ret img ->
  (forall i, (0 < i < N)%nat -> block_unpack (e_me (e i)) (nbase i) img = Ret (b' i)) ->
  (forall res, res 0%nat = b 0%nat -> (forall i, (0 < i < N)%nat -> res i = b' i) -> Q [] res f) ->
  does N all (fun i => broadcast (junk i) (e i) (world N) i 0 (nbase i) (b i)) f Q.
Proof.
  intros Hp Hu HQ. unfold broadcast.
  apply does_bind with (fun l res f' => l = [] /\ f' = f /\ res 0%nat = img).
  { apply does_ext with (fun i => mret (if (i =? 0)%nat then img else [])).
    - intros i Hi _. rewrite rank_world by exact Hi. destruct i; cbn [Nat.eqb]; [rewrite Hp|]; reflexivity.
    - apply does_ret. auto. }
  intros l res f' (-> & -> & R0). cbn [app].
  apply does_bind with (fun l r f' => l = [] /\ f' = f /\ forall i, r i = zlen img).
  { apply does_bcast_int with (root := fun _ => 0%nat) (n := fun _ => 8) (src := fun _ => 0%nat) (z := fun i => zlen (res i)); [apply world_all| |rewrite R0; auto].
    intros i Hi _. split; [|auto]. cbn [c_mem world]. apply nth_error_seq0. exact HN. }
  intros l len f' (-> & -> & RL). cbn [app].
  apply does_bind with (fun l r f' => l = [] /\ f' = f /\ forall i, r i = img).
  { apply does_bcast_bytes with (root := fun _ => 0%nat) (n := len) (src := fun _ => 0%nat) (z := res); [apply world_all| |rewrite R0; auto].
    intros i Hi _. split; [cbn [c_mem world]; apply nth_error_seq0; exact HN|]. intros j _. rewrite !RL. auto. }
  intros l buf f' (-> & -> & RB). cbn [app].
  apply does_ext with (fun i => mret (if (i =? 0)%nat then b 0%nat else b' i)).
  - intros i Hi _. rewrite rank_world, RB by exact Hi. destruct i; cbn [Nat.eqb]; [reflexivity|]. rewrite Hu by lia. reflexivity.
  - apply does_ret. apply HQ; [reflexivity|]. intros i Hi. destruct i; [lia|reflexivity].
Qed.

(* rank i makes files j .. j+n-1 *)
Lemma create_files_rank base i : (i < N)%nat -> forall n f j, does N (Nat.eqb i) (fun _ => create_files base j n) f (fun l res f' =>
  (forall k o, In (k, o) l -> k = i /\ exists q, j <= q < j + Z.of_nat n /\ o = op_truncate (data_path base q)) /\ (res i, f') = truncate_files f base j n).
Proof.
  intros Hi. induction n as [|n IH]; intros f j; cbn [create_files truncate_files].
  - apply (does_ret N (Nat.eqb i) (fun _ => 0)). split; [intros k o []|reflexivity].
  - apply does_bind with (fun l res f' => (forall k o, In (k, o) l -> k = i /\ o = op_truncate (data_path base j)) /\
      match fopen_w f (data_path base j) with None => res i = VNone /\ f' = f | Some f1 => res i = VZs [] /\ f' = f1 end).
    + destruct (fopen_w f (data_path base j)) as [f1|] eqn:E.
      * apply does_io with (r := VZs []) (f1 := f1); [exact Hi|unfold op_truncate; rewrite E; reflexivity|]. split; [|auto]. intros k o [[= <- <-]|[]]. auto.
      * apply does_io with (r := VNone) (f1 := f); [exact Hi|unfold op_truncate; rewrite E; reflexivity|]. split; [|auto]. intros k o [[= <- <-]|[]]. auto.
    + intros l res f' (HL & HM). destruct (fopen_w f (data_path base j)) as [f1|]; destruct HM as [E ->].
      * apply does_ext with (fun _ => create_files base (j + 1) n); [intros k Hk Ek; apply Nat.eqb_eq in Ek; subst k; rewrite E; reflexivity|].
        eapply does_mono; [|apply IH]. cbv beta. intros l' res' f2 (A & B). split; [|exact B]. intros k o Ho. apply in_app_or in Ho. destruct Ho as [Ho|Ho].
        -- destruct (HL k o Ho) as [-> ->]. split; [reflexivity|]. exists j. split; [lia|reflexivity].
        -- destruct (A k o Ho) as [-> (q & Hq & ->)]. split; [reflexivity|]. exists q. split; [lia|reflexivity].
      * apply does_ext with (fun _ => mret (-1)); [intros k Hk Ek; apply Nat.eqb_eq in Ek; subst k; rewrite E; reflexivity|].
        apply (does_ret N (Nat.eqb i) (fun _ => -1)). rewrite app_nil_r. split; [|reflexivity]. intros k o Ho. destruct (HL k o Ho) as [-> ->]. split; [reflexivity|]. exists j. split; [lia|reflexivity].
Qed.

(* all ranks; rank i makes files g i .. g (i+1) - 1 *)
Variable g : nat -> Z.
Hypothesis Hg : forall i, g i <= g (S i).
Lemma g_mono i j : (i <= j)%nat -> g i <= g j.
Proof. induction 1 as [|j _ IH]; [lia|]. pose proof (Hg j). lia. Qed.
Definition made_by (l : list (nat * act)) (base : bytes) : Prop :=
  forall i o, In (i, o) l -> (i < N)%nat /\ exists q, g i <= q < g (S i) /\ o = op_truncate (data_path base q).

Lemma create_files_some base f k : (k <= N)%nat ->
  does N (fun i => i <? k)%nat (fun i => create_files base (g i) (Z.to_nat (g (S i) - g i))) f (fun l res f' =>
    made_by l base /\ (forall i, (i < k)%nat -> res i = 0 \/ res i = -1) /\
    ((forall i, (i < k)%nat -> res i = 0) <-> forall q, g 0 <= q < g k -> can_make f base q) /\
    (forall q, can_make f' base q <-> can_make f base q) /\
    ((forall i, (i < k)%nat -> res i = 0) -> truncate_files f base (g 0) (Z.to_nat (g k - g 0)) = (0, f'))).
Proof.
  induction k as [|k IH]; intros Hk.
  - eapply does_set; [intros i Hi; instantiate (1 := fun _ => false); reflexivity|].
    intros A ps h _. apply goes_done. exists (fun _ => 0). split; [discriminate|]. split; [reflexivity|].
    split; [intros i o []|]. split; [intros i Hi; lia|]. split; [split; intros; lia|]. split; [reflexivity|]. intros _. rewrite Z.sub_diag. reflexivity.
  - eapply (does_split N (fun i => i <? S k)%nat (fun i => i <? k)%nat).
    + eapply does_set; [|apply IH; lia]. intros i Hi. cbv beta. destruct (Nat.ltb_spec i (S k)), (Nat.ltb_spec i k); try reflexivity; lia.
    + cbv beta. intros l res f' (L1 & L2 & L3 & L4 & L5).
      eapply does_set; [intros i Hi; instantiate (1 := Nat.eqb k); cbv beta; destruct (Nat.ltb_spec i (S k)), (Nat.ltb_spec i k), (Nat.eqb_spec k i); try reflexivity; lia|].
      apply vat. eapply does_mono; [|apply create_files_rank; lia]. cbv beta. intros l' res' f2 (M1 & M2).
      destruct (truncate_spec base (Z.to_nat (g (S k) - g k)) f' (g k) (res' k) f2) as (T1 & T2 & T3); [symmetry; exact M2|].
      pose proof (Hg k) as Hgk. pose proof (g_mono 0 k ltac:(lia)) as Hg0.
      assert (R : forall i, (i < S k)%nat -> (if (i <? k)%nat then res i else res' i) = if (i <? k)%nat then res i else res' k). { intros i Hi. destruct (Nat.ltb_spec i k); [reflexivity|]. replace i with k by lia. reflexivity. }
      split; [|split; [|split; [|split]]].
      * intros i o Ho. apply in_app_or in Ho. destruct Ho as [Ho|Ho]; [apply L1; exact Ho|]. destruct (M1 i o Ho) as [-> (q & Hq & ->)]. split; [lia|]. exists q. split; [lia|reflexivity].
      * intros i Hi. rewrite R by exact Hi. destruct (Nat.ltb_spec i k); [auto|exact T1].
      * split.
        -- intros X q Hq. destruct (Z_lt_le_dec q (g k)) as [Hl|Hl].
           ++ apply L3; [|lia]. intros i Hi. specialize (X i ltac:(lia)). rewrite R in X by lia. destruct (Nat.ltb_spec i k); [exact X|lia].
           ++ apply L4. apply T2; [|lia]. specialize (X k ltac:(lia)). cbv beta in X. destruct (Nat.ltb_spec k k) as [Hkk|_] in X; [lia|]. exact X.
        -- intros X i Hi. rewrite R by exact Hi. destruct (Nat.ltb_spec i k) as [Hl|Hl]; [apply L3; [intros q Hq; apply X; lia|exact Hl]|]. apply T2. intros q Hq. apply L4. apply X. lia.
      * intros q. rewrite T3. apply L4.
      * intros X. assert (E1 : truncate_files f base (g 0%nat) (Z.to_nat (g k - g 0%nat)) = (0, f')). { apply L5. intros i Hi. specialize (X i ltac:(lia)). rewrite R in X by lia. destruct (Nat.ltb_spec i k); [exact X|lia]. }
        specialize (X k ltac:(lia)). cbv beta in X. destruct (Nat.ltb_spec k k) as [Hkk|_] in X; [lia|].
        replace (Z.to_nat (g (S k) - g 0%nat)) with (Z.to_nat (g k - g 0%nat) + Z.to_nat (g (S k) - g k))%nat by lia. rewrite truncate_app, E1. cbn [Z.eqb].
        replace (g 0%nat + Z.of_nat (Z.to_nat (g k - g 0%nat))) with (g k) by lia. rewrite <- M2, X. reflexivity.
Qed.
Lemma create_files_all base f :
  does N all (fun i => create_files base (g i) (Z.to_nat (g (S i) - g i))) f (fun l res f' =>
    made_by l base /\ (forall i, (i < N)%nat -> res i = 0 \/ res i = -1) /\
    ((forall i, (i < N)%nat -> res i = 0) <-> forall q, g 0 <= q < g N -> can_make f base q) /\
    ((forall i, (i < N)%nat -> res i = 0) -> truncate_files f base (g 0) (Z.to_nat (g N - g 0)) = (0, f'))).
Proof.
  eapply does_set; [|eapply does_mono; [|apply (create_files_some base f N); lia]].
  - intros i Hi. cbv beta. symmetry. apply Nat.ltb_lt. exact Hi.
  - cbv beta. intros l res f' (A & B & C & _ & D). auto.
Qed.

(* different ranks make different files *)
Lemma made_by_good l base : 0 <= g 0 -> g N <= 2 ^ 32 -> made_by l base -> good fs_eq l.
Proof.
  intros H0 H1 HM. split.
  - intros i o Ho. destruct (HM i o Ho) as (_ & q & Hq & ->). eapply foot_respects; [|apply truncate_foot]. intros p. destruct (path_eq_dec (data_path base q) p); auto.
  - intros i o j o' Ho Ho' Hn. destruct (HM i o Ho) as (Hi & q & Hq & ->). destruct (HM j o' Ho') as (Hj & q' & Hq' & ->).
    eapply (foot_commute (eq (data_path base q)) (eq (data_path base q'))); [intros p; destruct (path_eq_dec (data_path base q) p); auto|intros p; destruct (path_eq_dec (data_path base q') p); auto| |apply truncate_foot|apply truncate_foot].
    intros p <- E. pose proof (g_mono 0 i ltac:(lia)). pose proof (g_mono 0 j ltac:(lia)). pose proof (g_mono (S i) N ltac:(lia)). pose proof (g_mono (S j) N ltac:(lia)).
    assert (2 ^ 32 < 16 ^ 64) by reflexivity.
    apply data_path_inj in E; [|lia|lia]. destruct (Nat.lt_trichotomy i j) as [X|[X|X]]; [|contradiction|]; [pose proof (g_mono (S i) j ltac:(lia))|pose proof (g_mono (S j) i ltac:(lia))]; lia.
Qed.
End All.

(* ----------------------------------------------------------- whole calls *)
Lemma copy_refl me b : transferable me b -> copy_of b b.
Proof.
  intros (_ & ra & a & os & s & d & rcs & A1 & A2 & A3 & A4 & A5). split; [constructor; auto|]. split; [reflexivity|].
  destruct (run_spec ra me os (attrset_create a) [] no_attrs (create_ok me a)) as (s' & m & E & OK & HM); auto.
  rewrite E in A4. injection A4 as _ <-. exists (fun name => assoc name m).
  assert (OKb : as_ok me (b_attrset b) m).
  { rewrite A5. destruct OK. constructor; auto. cbn [set_dirty as_list]. clear - ok_rep. induction ok_rep as [|x y l l' R _ IH]; constructor; auto. destruct R. constructor; auto. }
  split; intros name; eapply ok_shows; eauto.
Qed.
Lemma send_handle junk me b : transferable me b -> exists img, block_pack junk me b = Ret img /\ forall nbase, exists b', block_unpack me nbase img = Ret b' /\ copy_of b b'.
Proof.
  intros T. destruct (copy_refl me b T) as (_ & _ & m0 & Hm0 & _). destruct T as (HF & ra & a & os & s & d & rcs & A1 & A2 & A3 & A4 & A5).
  assert (RT : forall nbase, exists img b', block_pack junk me b = Ret img /\ block_unpack me nbase img = Ret b' /\ copy_of b b').
  { intros nbase. destruct (handle_round_trip junk me nbase ra a os [] s d b rcs A1 A2 (Forall_nil _)) as (img & b' & P & U & SH & S1 & S2 & _); auto; [cbn [map]; change (zsum []) with 0; lia|].
    exists img, b'. split; [exact P|]. split; [exact U|]. split; [exact SH|]. split; [exact S2|]. exists (snd (aspecs me no_attrs os)). split; [|exact S1].
    destruct (run_spec ra me os (attrset_create a) [] no_attrs (create_ok me a)) as (s' & m & E & OK & HM); auto.
    rewrite E in A4. injection A4 as _ <-.
    assert (OKb : as_ok me (b_attrset b) m).
    { rewrite A5. destruct OK. constructor; auto. cbn [set_dirty as_list]. clear - ok_rep. induction ok_rep as [|x y l l' R _ IH]; constructor; auto. destruct R. constructor; auto. }
    intros name. rewrite <- HM. eapply ok_shows; eauto. }
  destruct (RT 0) as (img & b0 & P & _). exists img. split; [exact P|]. intros nbase. destruct (RT nbase) as (img' & b' & P' & U & C). rewrite P in P'. injection P' as <-. eauto.
Qed.

(* a block fresh from creation can be sent *)
Lemma flush_fresh e f b f' b' : as_list (b_attrset b) = [] -> big_block_flush e f b = Ret (0, f', b') ->
  exists dd d, b' = set_attrs (set_bdirty b dd) (set_dirty (b_attrset b) d).
Proof.
  intros HL H. unfold big_block_flush in H.
  destruct (b_dirty b) eqn:ED.
  - destruct (fopen_w f (header_path (b_base b))) as [f0|]; [|cbn [bind negb Z.eqb] in H; discriminate].
    destruct (header_image b) as [img| |]; [|discriminate|discriminate]. cbn [bind Z.eqb negb] in H. cbn [set_bdirty b_attrset b_base] in H. rewrite HL in H.
    destruct (as_dirty (b_attrset b)) eqn:EA.
    + destruct (fopen_w _ (attr2_path (b_base b))); [|discriminate]. cbn [attr_lines bind] in H. injection H as _ <-. eexists. eexists. reflexivity.
    + injection H as _ <-. exists false, false. unfold set_dirty. destruct b, b_attrset; cbn in *; subst; reflexivity.
  - cbn [bind Z.eqb negb] in H. rewrite HL in H. destruct (as_dirty (b_attrset b)) eqn:EA.
    + destruct (fopen_w _ (attr2_path (b_base b))); [|discriminate]. cbn [attr_lines bind] in H. injection H as _ <-. exists false, false. destruct b, b_attrset; cbn in *; subst; reflexivity.
    + injection H as _ <-. exists false, false. destruct b, b_attrset; cbn in *; subst; reflexivity.
Qed.
Lemma offsets_len l : forall acc, zlen (offsets acc l) = zlen l + 1.
Proof. unfold zlen. induction l as [|x l IH]; intros acc; cbn [offsets length]; [lia|]. specialize (IH (u64 (acc + x))). lia. Qed.
Lemma offsets_range l : forall acc, 0 <= acc < 2 ^ 64 -> Forall (fun z => 0 <= z < 2 ^ 64) (offsets acc l).
Proof. induction l as [|x l IH]; intros acc H; cbn [offsets]; constructor; auto. apply IH. unfold u64. lia. Qed.
Lemma last_range l : l <> [] -> Forall (fun z => 0 <= z < 2 ^ 64) l -> 0 <= last l 0 < 2 ^ 64.
Proof. intros Hn H. rewrite Forall_forall in H. apply H. destruct l; [contradiction|]. rewrite (app_removelast_last 0 Hn) at 2. apply in_or_app. right. left. reflexivity. Qed.
Lemma offsets_not_nil acc l : offsets acc l <> []. Proof. destruct l; discriminate. Qed.
Lemma created_sendable me e f base dtype nmemb Nfile fsize f1 b : e_me e = me -> create_fits base dtype nmemb Nfile fsize ->
  create_internal e f base dtype nmemb Nfile fsize = Ret (f1, Some b) -> transferable me b /\ b_base b = strdup base.
Proof.
  intros Hme (F1 & F2 & F3 & F4 & F5) H. unfold create_internal in H.
  assert (Fb : nul_free (strdup base) /\ (length (strdup base) <= Z.to_nat 8192)%nat).
  { unfold strdup. split; [|apply firstn_le_length]. intros Hx. apply F1. rewrite <- (firstn_skipn (Z.to_nat 8192) base). apply in_or_app. left. exact Hx. }
  assert (T : forall b0 dd d, handle_fits b0 -> b_attrset b0 = set_dirty (attrset_create (e_malloc e)) true -> transferable me (set_bdirty (set_attrs (set_bdirty b0 dd) (set_dirty (b_attrset b0) d)) false)).
  { intros b0 dd d HF HA. split; [destruct HF; constructor; auto|]. exists (e_realloc e), (e_malloc e), [], (attrset_create (e_malloc e)), d, []. split; [constructor|]. split; [constructor|]. split; [discriminate|]. split; [reflexivity|]. cbn [set_bdirty set_attrs b_attrset]. rewrite HA. reflexivity. }
  destruct (has_blank base); [discriminate|]. destruct (is_meta (strdup base)).
  - set (b0 := mkBlock _ _ _ _ _ _ _ _ _ _) in *. destruct (big_block_flush e f b0) as [[[rc f'] b']| |] eqn:EF; [|discriminate|discriminate].
    cbn [bind] in H. destruct (Z.eqb_spec rc 0); [|discriminate]. subst rc. cbn [negb] in H. injection H as <- <-.
    destruct (flush_fresh e f b0 f' b' eq_refl EF) as (dd & d & ->). split; [|reflexivity]. apply T; [|reflexivity].
    constructor; cbn [b0 b_dtype b_nmemb b_base b_size b_Nfile b_fsize b_foffset b_fchecksum]; auto; try lia; try (split; [intros []|cbn; lia]); try (split; [auto|constructor]).
  - assert (X : exists d0 nf fsz, nul_free d0 /\ nf < 2 ^ 31 /\ Forall (fun z => 0 <= z < 2 ^ 64) fsz /\ match dtype with None => (lit "i8", 0, []) | Some d => (d, Nfile, fsize) end = (d0, nf, fsz)).
    { destruct dtype as [d|]; [exists d, Nfile, fsize; auto|]. exists (lit "i8"), 0, []. split; [intros [X|[X|[]]]; discriminate X|]. split; [reflexivity|]. split; [constructor|reflexivity]. }
    destruct X as (d0 & nf & fsz & X1 & X2 & X3 & X4). rewrite X4 in H. cbv iota beta in H. destruct (nf <? -1); [discriminate|]. destruct ((nf <? 0) || (zlen fsz <? nf)) eqn:G; [discriminate|].
    apply orb_false_iff in G. destruct G as [G1 G2]. apply Z.ltb_ge in G1, G2.
    set (b0 := mkBlock _ _ _ _ _ _ _ _ _ _) in *. destruct (big_block_flush e f b0) as [[[rc f'] b']| |] eqn:EF; [|discriminate|discriminate].
    cbn [bind] in H. destruct (Z.eqb_spec rc 0); [|discriminate]. subst rc. cbn [negb] in H. injection H as <- <-.
    destruct (flush_fresh e f b0 f' b' eq_refl EF) as (dd & d & ->). split; [|reflexivity]. apply T; [|reflexivity].
    assert (L1 : zlen (firstn (Z.to_nat nf) fsz) = nf) by (unfold zlen in *; rewrite firstn_length; lia).
    assert (L2 : Forall (fun z => 0 <= z < 2 ^ 64) (firstn (Z.to_nat nf) fsz)). { rewrite Forall_forall in *. intros x Hx. apply X3. rewrite <- (firstn_skipn (Z.to_nat nf) fsz). apply in_or_app. left. exact Hx. }
    constructor; cbn [b0 b_dtype b_nmemb b_base b_size b_Nfile b_fsize b_foffset b_fchecksum]; auto.
    + split; [apply normalize_nul; exact X1|]. rewrite normalize_spec. cbn [length]. rewrite firstn_length. lia.
    + apply last_range; [apply offsets_not_nil|apply offsets_range; lia].
    + split; [right; unfold zlen in *; rewrite app_length; cbn [length]; lia|]. apply Forall_app. split; [exact L2|repeat constructor; lia].
    + split; [right; rewrite offsets_len; lia|apply offsets_range; lia].
    + split; [right; unfold zlen; rewrite repeat_length; lia|]. apply Forall_forall. intros x Hx. apply repeat_spec in Hx. subst x. lia.
Qed.

Section Calls.
Variables (N : nat) (me : endian) (junk : nat -> nat -> nat -> byte) (e : nat -> env) (nbase : nat -> Z).
Hypothesis HN : (0 < N)%nat.
Hypothesis Hme : forall i, (i < N)%nat -> e_me (e i) = me.
Notation all := (fun _ : nat => true).

Lemma does_send b f (Q : list (nat * act) -> (nat -> block) -> fs -> Prop) : transferable me (b 0%nat) ->
  (forall res, (forall i, (i < N)%nat -> handed (b 0%nat) i (res i)) -> Q [] res f) ->
  does N all (fun i => broadcast (junk i) (e i) (world N) i 0 (nbase i) (b i)) f Q.
Proof.
  intros T HQ. destruct (send_handle (junk 0%nat) me (b 0%nat) T) as (img & P & U).
  pose (bs := fun i => match block_unpack me (nbase i) img with Ret b' => b' | _ => b 0%nat end).
  assert (Hb : forall i, block_unpack me (nbase i) img = Ret (bs i) /\ copy_of (b 0%nat) (bs i)). { intros i. unfold bs. destruct (U (nbase i)) as (b' & E & C). rewrite E. auto. }
  apply does_broadcast with (img := img) (b' := bs); [exact HN|rewrite Hme by lia; exact P|intros i Hi; rewrite Hme by lia; apply Hb|].
  intros res R0 R. apply HQ. intros i Hi. destruct i; [rewrite R0; split; [apply (copy_refl me); exact T|reflexivity]|]. rewrite R by lia. split; [apply Hb|discriminate].
Qed.

(* rank 0 acts and all agree on the outcome *)
Lemma verdict_root rt rc : (forall i, (i < N)%nat -> rt i = if (i =? 0)%nat then rc else 0) -> verdict (world N) rt = rc.
Proof.
  intros H. unfold verdict. cbn [c_mem world]. destruct (last_bad (seq 0 N) rt) as [k|] eqn:E.
  - apply last_bad_in in E. destruct E as [A B]. apply in_seq in A. rewrite H in * by lia. destruct k; [reflexivity|]. cbn in B. lia.
  - rewrite last_bad_none in E. specialize (E 0%nat). rewrite H in E by lia. cbn in E. symmetry. apply E. apply in_seq. lia.
Qed.

(* only rank 0 has acted *)
Lemma good_eq l : (forall i o, In (i, o) l -> i = 0%nat) -> good eq l.
Proof. intros HL. split; [intros i o Hi f1 g r f' <- X; eauto|]. intros i o j o' Hi Hj Hn. rewrite (HL _ _ Hi), (HL _ _ Hj) in Hn. contradiction. Qed.
Lemma lead_agree_eq {B} l rt (q : nat -> Z -> M B) f (Q : (nat -> B) -> fs -> Prop) : (forall i o, In (i, o) l -> i = 0%nat) ->
  (forall res, (forall i, (i < N)%nat -> res i = verdict (world N) rt) -> leads N [] (fun i => q i (res i)) f Q) ->
  leads N l (fun i => mbind (agree (world N) i (rt i)) (q i)) f Q.
Proof. intros HL H. apply (leads_agree N [] HN eq (@eq_refl _) (@eq_trans _) (@eq_sym _)); [apply good_eq; exact HL|]. intros g res <-. apply H. Qed.

Definition open_result ob (f : fs) (res : nat -> Z * block) (g : fs) : Prop := g = f /\ forall i, (i < N)%nat ->
  match ob with Some b => exists b', res i = (0, b') /\ handed b i b' | None => fst (res i) = -1 end.
Lemma lead_open base f ob : big_block_open (e 0%nat) f base = Ret ob -> (forall b, ob = Some b -> transferable me b) ->
  leads N [] (fun i => mpi_open (junk i) (e i) (world N) i (nbase i) base) f (open_result ob f).
Proof.
  intros Ho HT.
  assert (Eop : op_open (e 0%nat) base f = Ret (match ob with Some b => VCode 0 b | None => VNone end, f)) by (unfold op_open, pack_op; rewrite Ho; reflexivity).
  unfold mpi_open.
  apply leads_does with (fun l res f' => (forall i o, In (i, o) l -> i = 0%nat) /\ f' = f /\ forall i, (i < N)%nat -> res i = if (i =? 0)%nat then match ob with Some b => (0, b) | None => (-1, no_block) end else (0, no_block)).
  { apply (does_root N) with (r := 0%nat) (d := fun _ => (0, no_block)); [exact HN|reflexivity|intros i Hi _; rewrite (rank_world N HN) by exact Hi; destruct i; reflexivity|reflexivity|].
    apply does_bind with (fun l res f' => (forall i o, In (i, o) l -> i = 0%nat) /\ f' = f /\ res 0%nat = match ob with Some b => VCode 0 b | None => VNone end).
    - apply does_io with (r := match ob with Some b => VCode 0 b | None => VNone end) (f1 := f); [exact HN|exact Eop|]. split; [intros i o [[= <- <-]|[]]; reflexivity|auto].
    - intros l res f' (HL & -> & R). apply does_ext with (fun _ => mret (match ob with Some b => (0, b) | None => (-1, no_block) end)); [intros i Hi Ei; apply Nat.eqb_eq in Ei; subst i; rewrite R; destruct ob; reflexivity|].
      apply does_ret. rewrite app_nil_r. split; [exact HL|]. split; [reflexivity|]. intros i Hi. destruct i; reflexivity. }
  intros l res f' (HL & -> & R).
  apply leads_ext with (fun i => mbind (agree (world N) i (fst (res i))) (fun rt => if negb (rt =? 0) then mret (rt, snd (res i)) else mbind (broadcast (junk i) (e i) (world N) i 0 (nbase i) (snd (res i))) (fun b => mret (0, b)))).
  { intros i Hi. destruct (res i); reflexivity. }
  apply (lead_agree_eq _ (fun i => fst (res i))); [exact HL|]. intros rt HR.
  assert (Rt : forall i, (i < N)%nat -> rt i = match ob with Some _ => 0 | None => -1 end).
  { intros i Hi. rewrite HR by exact Hi. apply verdict_root. intros j Hj. rewrite R by exact Hj. destruct j; destruct ob; reflexivity. }
  destruct ob as [b|].
  - apply leads_ext with (fun i => mbind (broadcast (junk i) (e i) (world N) i 0 (nbase i) (snd (res i))) (fun b => mret (0, b))); [intros i Hi; rewrite Rt by exact Hi; reflexivity|].
    apply leads_does with (fun l' rb f' => l' = [] /\ f' = f /\ forall i, (i < N)%nat -> handed b i (rb i)).
    + apply does_send; [rewrite R by exact HN; apply HT; reflexivity|]. intros rb HS. split; [reflexivity|]. split; [reflexivity|]. intros i Hi. specialize (HS i Hi). rewrite R in HS by exact HN. exact HS.
    + intros l2 rb f2 (-> & -> & RB). apply (leads_ret N (fun i => (0, rb i))). split; [reflexivity|]. intros i Hi. eauto.
  - apply leads_ext with (fun i => mret (-1, snd (res i))); [intros i Hi; rewrite Rt by exact Hi; reflexivity|].
    apply leads_ret. split; [reflexivity|]. intros i Hi. reflexivity.
Qed.

(* rank 0 makes the handle, then every rank makes its files *)
Lemma good_root o l base q0 : foot (meta_path base) o -> good fs_eq l -> (forall i o', In (i, o') l -> exists q, 0 <= q /\ q0 i q /\ o' = op_truncate (data_path base q)) -> good fs_eq ((0%nat, o) :: l).
Proof.
  intros F [G1 G2] HL.
  assert (D : forall q p, 0 <= q -> meta_path base p -> data_path base q = p -> False) by (intros q p Hq [->| ->] E; [eapply data_not_header; eauto|eapply data_not_attr2; eauto]).
  split.
  - intros i o' [[= <- <-]|Hi]; [eapply foot_respects; [apply meta_dec|exact F]|eauto].
  - intros i o1 j o2 [[= <- <-]|Hi] [[= <- <-]|Hj] Hn; [contradiction| | |eauto].
    + destruct (HL _ _ Hj) as (q & Hq & _ & ->). eapply foot_commute; [apply meta_dec| | |exact F|apply truncate_foot]; [intros p; destruct (path_eq_dec (data_path base q) p); auto|]. intros p A B. eapply D; eauto.
    + destruct (HL _ _ Hi) as (q & Hq & _ & ->). eapply foot_commute; [|apply meta_dec| |apply truncate_foot|exact F]; [intros p; destruct (path_eq_dec (data_path base q) p); auto|]. intros p A B. eapply D; eauto.
Qed.

Definition cut (n : Z) (i : nat) : Z := n * Z.of_nat i / Z.of_nat N.
Lemma cut_mono n i : 0 <= n -> cut n i <= cut n (S i).
Proof. intros H. unfold cut. apply Z.div_le_mono; nia. Qed.
Lemma cut_zero n : cut n 0 = 0. Proof. unfold cut. rewrite Z.mul_0_r. apply Z.div_0_l. lia. Qed.
Lemma cut_all n : cut n N = n. Proof. unfold cut. apply Z.div_mul. lia. Qed.
Lemma share_cut n i : (i < N)%nat -> share n (world N) i = (cut n i, cut n (S i)).
Proof.
  intros Hi. unfold share, cut, ntask. rewrite (rank_world N HN) by exact Hi. unfold zlen. cbn [c_mem world]. rewrite seq_length. rewrite Nat2Z.inj_succ. reflexivity.
Qed.

Definition handle_result ob (f1 : fs) (res : nat -> Z * block) (g : fs) : Prop :=
  match ob with
  | Some b => fs_eq f1 g /\ forall i, (i < N)%nat -> exists b', res i = (0, b') /\ handed b i b'
  | None => forall i, (i < N)%nat -> fst (res i) = -1
  end.
Lemma lead_create base dtype nmemb Nfile fsize f f1 ob : create_fits base dtype nmemb Nfile fsize ->
  big_block_create (e 0%nat) f base dtype nmemb Nfile fsize = Ret (f1, ob) ->
  leads N [] (fun i => mpi_create (junk i) (e i) (world N) i (nbase i) base dtype nmemb Nfile fsize) f (handle_result ob f1).
Proof.
  intros HF Hc. unfold big_block_create in Hc.
  destruct (create_internal (e 0%nat) f base dtype nmemb Nfile fsize) as [[f0 oc]| |] eqn:EC; [|discriminate|discriminate]. cbn [bind] in Hc.
  pose (op := op_create_internal (e 0%nat) base dtype nmemb Nfile fsize). pose (v := match oc with Some b => VCode 0 b | None => VNone end).
  assert (Eop : op f = Ret (v, f0)) by (unfold op, op_create_internal, pack_op; rewrite EC; reflexivity).
  unfold mpi_create.
  apply leads_does with (fun l res f' => l = [(0%nat, op)] /\ f' = f0 /\ forall i, (i < N)%nat -> res i = if (i =? 0)%nat then match oc with Some b => (0, b) | None => (-1, no_block) end else (0, no_block)).
  { apply (does_root N) with (r := 0%nat) (d := fun _ => (0, no_block)); [exact HN|reflexivity|intros i Hi _; rewrite (rank_world N HN) by exact Hi; destruct i; reflexivity|reflexivity|].
    apply does_bind with (fun l res f' => l = [(0%nat, op)] /\ f' = f0 /\ res 0%nat = v).
    - apply does_io with (r := v) (f1 := f0); [exact HN|exact Eop|]. auto.
    - intros l res f' (-> & -> & R). apply does_ext with (fun _ => mret (match oc with Some b => (0, b) | None => (-1, no_block) end)); [intros i Hi Ei; apply Nat.eqb_eq in Ei; subst i; rewrite R; unfold v; destruct oc; reflexivity|].
      apply does_ret. rewrite app_nil_r. split; [reflexivity|]. split; [reflexivity|]. intros i Hi. destruct i; reflexivity. }
  intros l res f' (-> & -> & R).
  apply leads_ext with (fun i => mbind (agree (world N) i (fst (res i))) (fun rt => if negb (rt =? 0) then mret (rt, snd (res i)) else mbind (broadcast (junk i) (e i) (world N) i 0 (nbase i) (snd (res i)))
     (fun b => let '(from, to) := share (b_Nfile b) (world N) i in mbind (create_files (b_base b) from (Z.to_nat (to - from))) (fun rt => mbind (agree (world N) i rt) (fun rt => mret (rt, b)))))).
  { intros i Hi. destruct (res i); reflexivity. }
  apply (lead_agree_eq _ (fun i => fst (res i))); [intros i o [[= <- <-]|[]]; reflexivity|]. intros rt HR.
  assert (Rt : forall i, (i < N)%nat -> rt i = match oc with Some _ => 0 | None => -1 end).
  { intros i Hi. rewrite HR by exact Hi. apply verdict_root. intros j Hj. rewrite R by exact Hj. destruct j; destruct oc; reflexivity. }
  destruct oc as [b|].
  2: { injection Hc as <- <-. apply leads_ext with (fun i => mret (-1, snd (res i))); [intros i Hi; rewrite Rt by exact Hi; reflexivity|].
    apply leads_ret. unfold handle_result. intros i Hi. reflexivity. }
  destruct (created_sendable me (e 0%nat) f base dtype nmemb Nfile fsize f0 b (Hme 0%nat HN) HF EC) as (T & Eb).
  assert (Hn : 0 <= b_Nfile b < 2 ^ 31) by (destruct T as [[] _]; assumption).
  destruct (truncate_files f0 (b_base b) 0 (Z.to_nat (b_Nfile b))) as [rc ft] eqn:ET.
  apply leads_ext with (fun i => mbind (broadcast (junk i) (e i) (world N) i 0 (nbase i) (snd (res i)))
     (fun b => let '(from, to) := share (b_Nfile b) (world N) i in mbind (create_files (b_base b) from (Z.to_nat (to - from))) (fun rt => mbind (agree (world N) i rt) (fun rt => mret (rt, b))))); [intros i Hi; rewrite Rt by exact Hi; reflexivity|].
  apply leads_does with (fun l' rb f' => l' = [] /\ f' = f0 /\ forall i, (i < N)%nat -> handed b i (rb i)).
  { apply does_send; [rewrite R by exact HN; exact T|]. intros rb HS. split; [reflexivity|]. split; [reflexivity|]. intros i Hi. specialize (HS i Hi). rewrite R in HS by exact HN. exact HS. }
  intros l2 rb f2 (-> & -> & RB).
  apply leads_ext with (fun i => mbind (create_files (b_base b) (cut (b_Nfile b) i) (Z.to_nat (cut (b_Nfile b) (S i) - cut (b_Nfile b) i))) (fun rt => mbind (agree (world N) i rt) (fun rt => mret (rt, rb i)))).
  { intros i Hi. destruct (RB i Hi) as (([] & _) & _). rewrite sh_Nfile, sh_base, share_cut by exact Hi. reflexivity. }
  eapply leads_does; [apply (create_files_all N HN (cut (b_Nfile b))); intros i; apply cut_mono; lia|].
  cbv beta. rewrite cut_zero, cut_all. rewrite Z.sub_0_r, ET. intros l3 rt3 f3 (L1 & L2 & L3 & L4).
  assert (G : good fs_eq l3) by (eapply (made_by_good N HN (cut (b_Nfile b))); [intros i; apply cut_mono; lia|rewrite cut_zero; lia|rewrite cut_all; lia|exact L1]).
  apply (leads_agree N [] HN fs_eq fs_eq_refl fs_eq_trans fs_eq_sym _ rt3); [exact G|]. intros g rv Hg HRv. change (mkComm [] (seq 0 N)) with (world N) in HRv.
  assert (RV : forall i, (i < N)%nat -> rv i = rc).
  { intros i Hi. rewrite HRv by auto.
    destruct (truncate_spec (b_base b) _ f0 0 rc ft ET) as (T1 & T2 & _).
    assert (Z0 : verdict (world N) rt3 = 0 <-> rc = 0).
    { rewrite verdict_zero, T2. rewrite Z.add_0_l, Z2Nat.id by lia. rewrite <- L3. cbn [c_mem world]. split; intros X j Hj; apply X; apply in_seq + (apply in_seq in Hj); lia. }
    destruct T1 as [->| ->]; [apply Z0; reflexivity|]. unfold verdict in *. destruct (last_bad (c_mem (world N)) rt3) as [k|] eqn:EL; [|exfalso; destruct Z0 as [Z1 _]; specialize (Z1 eq_refl); discriminate].
    pose proof (last_bad_in _ _ _ EL) as [K1 K2]. cbn [c_mem world] in K1. apply in_seq in K1. destruct (L2 k ltac:(lia)) as [K|K]; [contradiction|exact K]. }
  apply (leads_ret N (fun i => (rv i, rb i))).
  destruct (Z.eqb_spec rc 0) as [->|Hrc]; cbn [negb] in Hc; injection Hc as <- <-; unfold handle_result.
  - assert (X : forall i, (i < N)%nat -> rt3 i = 0). { apply L3. intros q Hq. destruct (truncate_spec (b_base b) _ f0 0 0 ft ET) as (_ & T2 & _). apply T2; [reflexivity|lia]. }
    specialize (L4 X). injection L4 as <-. split; [exact Hg|]. intros i Hi. exists (rb i). rewrite RV by exact Hi. auto.
  - intros i Hi. cbn [fst]. rewrite RV by exact Hi. destruct (truncate_spec (b_base b) _ f0 0 rc ft ET) as ([K|K] & _); [contradiction|exact K].
Qed.

(* growing *)
Lemma grown_sendable b ngrow fsize b1 : transferable me b -> grow_fits b ngrow fsize -> grow_internal b ngrow fsize = Ret b1 ->
  transferable me b1 /\ b_base b1 = b_base b /\ b_Nfile b1 = b_Nfile b + ngrow.
Proof.
  intros (HF & HA) (G1 & G2 & G3 & G4 & G5) H. unfold grow_internal in H.
  destruct ((ngrow + b_Nfile b + 1 <? b_Nfile b) || (zlen fsize <? ngrow) || (ngrow + b_Nfile b <? 0)) eqn:EG; [discriminate|].
  apply orb_false_iff in EG. destruct EG as [EG E3]. apply orb_false_iff in EG. destruct EG as [E1 E2]. apply Z.ltb_ge in E1, E2, E3.
  injection H as <-. split; [|cbn [b_base b_Nfile]; split; [reflexivity|lia]].
  split; [|exact HA]. destruct HF.
  destruct hf_fsize as [[|L1] R1]; [contradiction|]. destruct hf_fchecksum as [[|L2] R2]; [contradiction|].
  assert (FF : forall (Q : Z -> Prop) n (l : list Z), Forall Q l -> Forall Q (firstn n l)). { intros Q n l HQ. rewrite Forall_forall in *. intros x Hx. apply HQ. rewrite <- (firstn_skipn n l). apply in_or_app. left. exact Hx. }
  set (fsz := firstn (Z.to_nat (ngrow + b_Nfile b)) (firstn (Z.to_nat (b_Nfile b)) (b_fsize b) ++ firstn (Z.to_nat ngrow) fsize)) in *.
  set (fck := firstn (Z.to_nat (ngrow + b_Nfile b)) (firstn (Z.to_nat (b_Nfile b)) (b_fchecksum b) ++ repeat 0 (Z.to_nat ngrow))) in *.
  assert (A1 : zlen fsz = ngrow + b_Nfile b). { unfold fsz, zlen in *. rewrite firstn_length, app_length, !firstn_length. lia. }
  assert (A2 : zlen fck = ngrow + b_Nfile b). { unfold fck, zlen in *. rewrite firstn_length, app_length, !firstn_length, repeat_length. lia. }
  assert (B1 : Forall (fun z => 0 <= z < 2 ^ 64) fsz). { apply FF. apply Forall_app. split; apply FF; assumption. }
  assert (B2 : Forall (fun z => 0 <= z < 2 ^ 32) fck). { apply FF. apply Forall_app. split; [apply FF; assumption|]. apply Forall_forall. intros x Hx. apply repeat_spec in Hx. subst x. lia. }
  clearbody fsz fck. constructor; cbn [b_dtype b_nmemb b_base b_size b_Nfile b_fsize b_foffset b_fchecksum]; auto; try lia.
  - apply last_range; [apply offsets_not_nil|apply offsets_range; lia].
  - split; [right; unfold zlen in *; rewrite app_length; cbn [length]; lia|]. apply Forall_app. split; [exact B1|repeat constructor; lia].
  - split; [right; rewrite offsets_len; lia|apply offsets_range; lia].
  - split; [right; unfold zlen in *; rewrite app_length; cbn [length]; lia|]. apply Forall_app. split; [exact B2|repeat constructor; lia].
Qed.

Definition grow_result rc b1 (f1 : fs) (res : nat -> Z * block) (g : fs) : Prop :=
  (rc = 0 -> fs_eq f1 g) /\ forall i, (i < N)%nat -> exists b', res i = (rc, b') /\ handed b1 i b'.
Lemma lead_grow (b : nat -> block) ngrow fsize f rc f1 b1 : transferable me (b 0%nat) -> grow_fits (b 0%nat) ngrow fsize ->
  (forall i, (i < N)%nat -> b_Nfile (b i) = b_Nfile (b 0%nat)) ->
  big_block_grow f (b 0%nat) ngrow fsize = Ret (rc, f1, b1) ->
  leads N [] (fun i => mpi_grow (junk i) (e i) (world N) i (nbase i) (b i) ngrow fsize) f (grow_result rc b1 f1).
Proof.
  intros HT HF HNf Hc. unfold big_block_grow in Hc.
  destruct (grow_internal (b 0%nat) ngrow fsize) as [b1'| |] eqn:EC; [|discriminate|discriminate]. cbn [bind] in Hc.
  destruct (grown_sendable (b 0%nat) ngrow fsize b1' HT HF EC) as (T & Eb & En).
  destruct (truncate_files f (b_base (b 0%nat)) (b_Nfile (b 0%nat)) (Z.to_nat (b_Nfile b1' - b_Nfile (b 0%nat)))) as [rc' ft] eqn:ET. injection Hc as -> -> ->.
  set (old := b_Nfile (b 0%nat)) in *. assert (Hold : 0 <= old) by (destruct HT as [[] _]; unfold old; lia). destruct HF as (_ & _ & Hg0 & Hg1 & _).
  replace (Z.to_nat (b_Nfile b1 - old)) with (Z.to_nat ngrow) in ET by lia. fold old in Hg1. clearbody old.
  unfold mpi_grow.
  apply leads_does with (fun l res f' => l = [] /\ f' = f /\ forall i, (i < N)%nat -> res i = if (i =? 0)%nat then b1 else b i).
  { apply (does_root N) with (r := 0%nat) (d := b); [exact HN|reflexivity|intros i Hi _; rewrite (rank_world N HN) by exact Hi; destruct i; reflexivity|reflexivity|].
    rewrite EC. cbn [local]. apply (does_ret N (Nat.eqb 0) (fun _ => b1)). split; [reflexivity|]. split; [reflexivity|]. intros i Hi. destruct i; reflexivity. }
  intros l res f' (-> & -> & R).
  apply leads_does with (fun l' rt f' => l' = [] /\ f' = f /\ forall i, (i < N)%nat -> rt i = 0).
  { apply does_agree with (C := fun _ => world N) (rt := fun i => 0); [apply world_all; exact HN|]. intros rt HR. split; [reflexivity|]. split; [reflexivity|]. intros i Hi. rewrite HR by auto. apply verdict_zero. reflexivity. }
  intros l1 rt f2 (-> & -> & Rt). cbn [app]. rewrite ?app_nil_r.
  apply leads_ext with (fun i => mbind (broadcast (junk i) (e i) (world N) i 0 (nbase i) (res i))
     (fun b => let '(from, to) := share ngrow (world N) i in mbind (create_files (b_base b) (from + old) (Z.to_nat (to - from))) (fun rt => mbind (agree (world N) i rt) (fun rt => mret (rt, b))))); [intros i Hi; rewrite Rt, HNf by exact Hi; reflexivity|].
  apply leads_does with (fun l' rb f' => l' = [] /\ f' = f /\ forall i, (i < N)%nat -> handed b1 i (rb i)).
  { apply does_send; [rewrite R by exact HN; exact T|]. intros rb HS. split; [reflexivity|]. split; [reflexivity|]. intros i Hi. specialize (HS i Hi). rewrite R in HS by exact HN. exact HS. }
  intros l2 rb f2 (-> & -> & RB). pose (g := fun i => old + cut ngrow i).
  apply leads_ext with (fun i => mbind (create_files (b_base (b 0%nat)) (g i) (Z.to_nat (g (S i) - g i))) (fun rt => mbind (agree (world N) i rt) (fun rt => mret (rt, rb i)))).
  { intros i Hi. destruct (RB i Hi) as (([] & _) & _). rewrite sh_base, Eb, share_cut by exact Hi. unfold g. cbv iota beta. replace (old + cut ngrow (S i) - (old + cut ngrow i)) with (cut ngrow (S i) - cut ngrow i) by lia. rewrite (Z.add_comm old). reflexivity. }
  assert (Gm : forall i, g i <= g (S i)). { intros i. unfold g. pose proof (cut_mono ngrow i Hg0). lia. }
  assert (G0 : g 0%nat = old). { unfold g. rewrite cut_zero. lia. } assert (GN : g N = old + ngrow). { unfold g. rewrite cut_all. reflexivity. }
  eapply leads_does; [apply (create_files_all N HN g); exact Gm|].
  cbv beta. rewrite G0, GN. replace (old + ngrow - old) with ngrow by lia. rewrite ET. intros l3 rt3 f3 (L1 & L2 & L3 & L4).
  assert (G : good fs_eq l3). { eapply (made_by_good N HN g); [exact Gm|lia|lia|exact L1]. }
  destruct (truncate_spec (b_base (b 0%nat)) _ f old rc f1 ET) as (T1 & T2 & _). rewrite Z2Nat.id in T2 by lia.
  apply (leads_agree N [] HN fs_eq fs_eq_refl fs_eq_trans fs_eq_sym _ rt3); [exact G|]. intros g' rv Hg' HRv. change (mkComm [] (seq 0 N)) with (world N) in HRv.
  assert (RV : forall i, (i < N)%nat -> rv i = rc).
  { intros i Hi. rewrite HRv by auto.
    assert (Z0 : verdict (world N) rt3 = 0 <-> rc = 0).
    { rewrite verdict_zero, T2. rewrite <- L3. cbn [c_mem world]. split; intros X j Hj; apply X; apply in_seq + (apply in_seq in Hj); lia. }
    destruct T1 as [->| ->]; [apply Z0; reflexivity|]. unfold verdict in *. destruct (last_bad (c_mem (world N)) rt3) as [k|] eqn:EL; [|exfalso; destruct Z0 as [Z1 _]; specialize (Z1 eq_refl); discriminate].
    pose proof (last_bad_in _ _ _ EL) as [K1 K2]. cbn [c_mem world] in K1. apply in_seq in K1. destruct (L2 k ltac:(lia)) as [K|K]; [contradiction|exact K]. }
  apply (leads_ret N (fun i => (rv i, rb i))).
  split.
  - intros ->. assert (X : forall i, (i < N)%nat -> rt3 i = 0) by (apply L3; apply T2; reflexivity).
    specialize (L4 X). injection L4 as <-. exact Hg'.
  - intros i Hi. exists (rb i). rewrite RV by exact Hi. auto.
Qed.

(* flushing *)
Lemma all_some_map {A B} (h : A -> B) l : all_some (map (fun x => Some (h x)) l) = Some (map h l).
Proof. induction l as [|x l IH]; [reflexivity|]. cbn [map all_some]. rewrite IH. reflexivity. Qed.
Lemma nth_firstn_lt (l : list Z) n j d : (j < n)%nat -> nth j (firstn n l) d = nth j l d.
Proof. revert n j. induction l as [|x l IH]; intros [|n] [|j] H; try reflexivity; try lia. cbn [firstn nth]. apply IH. lia. Qed.
Definition flush_result rc b1 (f1 : fs) (res : nat -> Z * block) (g : fs) : Prop :=
  g = f1 /\ forall i, (i < N)%nat -> fst (res i) = rc /\ (rc = 0 -> handed b1 i (snd (res i))).
Lemma lead_flush (b : nat -> block) f rc f1 b1 :
  (forall i, (i < N)%nat -> b_Nfile (b i) = b_Nfile (b 0%nat) /\ b_Nfile (b 0%nat) <= zlen (b_fchecksum (b i))) -> 0 <= b_Nfile (b 0%nat) ->
  big_block_flush (e 0%nat) f (merged N b) = Ret (rc, f1, b1) -> (rc = 0 -> transferable me b1) ->
  leads N [] (fun i => mpi_flush (junk i) (e i) (world N) i (nbase i) (b i)) f (flush_result rc b1 f1).
Proof.
  intros HNf Hn Hc HT. set (n := Z.to_nat (b_Nfile (b 0%nat))).
  pose (op := op_flush (e 0%nat) (merged N b)).
  assert (Eop : op f = Ret (VCode rc b1, f1)) by (unfold op, op_flush; rewrite Hc; reflexivity).
  assert (Hlen : forall i, (i < N)%nat -> length (firstn n (b_fchecksum (b i))) = n). { intros i Hi. destruct (HNf i Hi) as [A1 A2]. rewrite firstn_length. unfold n, zlen in *. lia. }
  assert (Hix : forall i, (i < N)%nat -> index (c_mem (world N)) i = i). { intros i Hi. pose proof (rank_world N HN i Hi) as X. exact X. }
  unfold mpi_flush.
  apply leads_ext with (fun i => mbind (mcoll (world N) (KReduce CUint RSum 0 (firstn n (b_fchecksum (b i))))) (fun sums => mbind (mcoll (world N) (KReduce CInt RLor 0 [if b_dirty (b i) then 1 else 0])) (fun dirty =>
     mbind (if (rank_in (world N) i =? 0)%nat then mbind (many sums) (fun sums => mbind (one dirty) (fun dirty => let b := set_checksums (set_bdirty (b i) (negb (dirty =? 0))) (sums ++ skipn n (b_fchecksum (b i))) in
       mbind (mio (op_flush (e i) b)) (fun v => mret (match v with VCode rc b => (rc, b) | _ => (-1, b) end)))) else mret (0, b i))
     (fun rb => let '(rt, bb) := rb in mbind (agree (world N) i rt) (fun rt => if negb (rt =? 0) then mret (rt, bb) else mbind (broadcast (junk i) (e i) (world N) i 0 (nbase i) bb) (fun b => mret (0, b))))))).
  { intros i Hi. destruct (HNf i Hi) as [A1 _]. cbv zeta. rewrite A1. fold n. reflexivity. }
  apply leads_does with (fun l sums f' => l = [] /\ f' = f /\ sums 0%nat = VZs (map (fun j => recorded N b j mod 2 ^ 32) (seq 0 n))).
  { apply (does_reduce N) with (C := fun _ => world N) (v := fun i => firstn n (b_fchecksum (b i))) (r := fun _ => map (fun j => recorded N b j mod 2 ^ 32) (seq 0 n)).
    - apply world_all; exact HN.
    - intros i j Hi _ Hj. cbn [c_mem world] in Hj. apply in_seq in Hj. rewrite !Hlen by lia. reflexivity.
    - intros i Hi _ _. rewrite Hlen by exact Hi. unfold reduce. cbn [c_mem world reduce1].
      rewrite <- all_some_map. f_equal. apply map_ext_in. intros j Hj. apply in_seq in Hj. unfold u32. do 2 f_equal. unfold recorded, column. f_equal. rewrite map_map. apply map_ext_in. intros k Hk. apply nth_firstn_lt. lia.
    - split; [reflexivity|]. split; [reflexivity|]. rewrite Hix by exact HN. reflexivity. }
  intros l sums f' (-> & -> & R1).
  apply leads_does with (fun l dirty f' => l = [] /\ f' = f /\ dirty 0%nat = VZs [if existsb (fun i => b_dirty (b i)) (seq 0 N) then 1 else 0]).
  { apply (does_reduce N) with (C := fun _ => world N) (v := fun i => [if b_dirty (b i) then 1 else 0]) (r := fun _ => [if existsb (fun i => b_dirty (b i)) (seq 0 N) then 1 else 0]).
    - apply world_all; exact HN.
    - reflexivity.
    - intros i Hi _ _. unfold reduce. cbn [length seq map reduce1 all_some c_mem world]. do 2 f_equal. unfold column. rewrite map_map. cbn [nth].
      assert (X : forall l, existsb (fun z => negb (z =? 0)) (map (fun i => if b_dirty (b i) then 1 else 0) l) = existsb (fun i => b_dirty (b i)) l). { induction l as [|x l IH]; [reflexivity|]. cbn [map existsb]. rewrite IH. destruct (b_dirty (b x)); reflexivity. }
      rewrite X. reflexivity.
    - split; [reflexivity|]. split; [reflexivity|]. rewrite Hix by exact HN. reflexivity. }
  intros l dirty f' (-> & -> & R2).
  apply leads_does with (fun l res f' => l = [(0%nat, op)] /\ f' = f1 /\ forall i, (i < N)%nat -> res i = if (i =? 0)%nat then (rc, b1) else (0, b i)).
  { apply (does_root N) with (r := 0%nat) (d := fun i => (0, b i)); [exact HN|reflexivity|intros i Hi _; rewrite (rank_world N HN) by exact Hi; destruct i; reflexivity|reflexivity|].
    rewrite R1, R2. cbn [many one].
    apply does_ext with (fun _ => mbind (mio op) (fun v => mret (match v with VCode rc b => (rc, b) | _ => (-1, merged N b) end))).
    { intros i Hi Ei. apply Nat.eqb_eq in Ei. subst i. unfold op, merged. cbv zeta. fold n.
      destruct (existsb (fun i => b_dirty (b i)) (seq 0 N)); reflexivity. }
    apply does_bind with (fun l res f' => l = [(0%nat, op)] /\ f' = f1 /\ res 0%nat = VCode rc b1).
    - apply does_io with (r := VCode rc b1) (f1 := f1); [exact HN|exact Eop|]. auto.
    - intros l res f' (-> & -> & R). apply does_ext with (fun _ => mret (rc, b1)); [intros i Hi Ei; apply Nat.eqb_eq in Ei; subst i; rewrite R; reflexivity|].
      apply does_ret. rewrite app_nil_r. split; [reflexivity|]. split; [reflexivity|]. intros i Hi. destruct i; reflexivity. }
  intros l res f' (-> & -> & R).
  apply leads_ext with (fun i => mbind (agree (world N) i (fst (res i))) (fun rt => if negb (rt =? 0) then mret (rt, snd (res i)) else mbind (broadcast (junk i) (e i) (world N) i 0 (nbase i) (snd (res i))) (fun b => mret (0, b)))).
  { intros i Hi. destruct (res i); reflexivity. }
  apply (lead_agree_eq _ (fun i => fst (res i))); [intros i o [[= <- <-]|[]]; reflexivity|]. intros rt HR.
  assert (Rt : forall i, (i < N)%nat -> rt i = rc).
  { intros i Hi. rewrite HR by exact Hi. apply verdict_root. intros j Hj. rewrite R by exact Hj. destruct j; reflexivity. }
  destruct (Z.eqb_spec rc 0) as [->|Hrc].
  - apply leads_ext with (fun i => mbind (broadcast (junk i) (e i) (world N) i 0 (nbase i) (snd (res i))) (fun b => mret (0, b))); [intros i Hi; rewrite Rt by exact Hi; reflexivity|].
    apply leads_does with (fun l' rb f' => l' = [] /\ f' = f1 /\ forall i, (i < N)%nat -> handed b1 i (rb i)).
    + apply does_send; [rewrite R by exact HN; apply HT; reflexivity|]. intros rb HS. split; [reflexivity|]. split; [reflexivity|]. intros i Hi. specialize (HS i Hi). rewrite R in HS by exact HN. exact HS.
    + intros l2 rb f2 (-> & -> & RB). apply (leads_ret N (fun i => (0, rb i))). split; [reflexivity|]. intros i Hi. cbn [fst snd]. auto.
  - apply leads_ext with (fun i => mret (rc, snd (res i))); [intros i Hi; rewrite Rt by exact Hi; destruct (Z.eqb_spec rc 0); [contradiction|reflexivity]|].
    apply leads_ret. split; [reflexivity|]. intros i Hi. split; [reflexivity|]. intros; contradiction.
Qed.
End Calls.
