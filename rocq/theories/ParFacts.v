(* Every schedule of a well-matched parallel program leads to the same end. *)
From Coq.Strings Require Import Byte String.
From Coq Require Import List ZArith Lia Bool ZifyBool ZifyNat.
From Verif Require Import Base BaseFacts FS Attr Block Par.
Import ListNotations.
Open Scope Z_scope.

(* ------------------------------------------------ replies *)
Lemma all_some_app {A} (l : list (option A)) x : all_some l = Some x -> l = map Some x.
Proof. revert x. induction l as [|[y|] l IH]; intros x H; cbn in H; try discriminate; [injection H as <-; reflexivity|].
  destruct (all_some l); [|discriminate]. injection H as <-. cbn. f_equal. auto. Qed.
Lemma all_some_map {A} (x : list A) : all_some (map Some x) = Some x.
Proof. induction x as [|y x IH]; cbn; [reflexivity|]. rewrite IH. reflexivity. Qed.

Definition more (get get' : nat -> option call) : Prop := forall j x, get j = Some x -> get' j = Some x.
Lemma gather_mono {B} (sel : call -> option B) l get get' r : more get get' -> gather sel l get = Some r -> gather sel l get' = Some r.
Proof.
  intros M. unfold gather. revert r. induction l as [|j l IH]; intros r H; cbn in *; [exact H|].
  destruct (get j) as [x|] eqn:E; [|discriminate]. rewrite (M _ _ E). destruct (sel x); [|discriminate].
  destruct (all_some (map _ l)) eqn:E2; [|discriminate]. rewrite (IH _ eq_refl). exact H.
Qed.
Lemma reply_mono c n get get' i r : more get get' -> reply c n get i = Some r -> reply c n get' i = Some r.
Proof.
  intros M. unfold reply. destruct (get i) as [x|] eqn:E; [|discriminate]. rewrite (M _ _ E).
  assert (G : forall B (sel : call -> option B) (k : list B -> option val),
    match gather sel (c_mem c) get with Some v => k v | None => None end = Some r ->
    match gather sel (c_mem c) get' with Some v => k v | None => None end = Some r).
  { intros B sel k H. destruct (gather sel (c_mem c) get) eqn:Eg; [|discriminate]. rewrite (gather_mono _ _ _ _ _ M Eg). exact H. }
  destruct x.
  - apply (G _ _ (fun _ => Some VNone)).
  - apply (G _ _ (fun vs => match reduce t op (length v) vs with Some r => Some (VZs r) | None => None end)).
  - destruct (index (c_mem c) i =? root)%nat; [|auto].
    apply (G _ _ (fun vs => match reduce t op (length v) vs with Some r => Some (VZs r) | None => None end)).
  - destruct (index (c_mem c) i =? root)%nat; [auto|]. destruct (nth_error (c_mem c) root) as [j|]; [|auto].
    destruct (get j) as [y|] eqn:Ej; [|discriminate]. rewrite (M _ _ Ej). auto.
  - apply (G _ _ (fun vs => Some (VZs vs))).
  - destruct (index (c_mem c) i =? root)%nat; [|auto].
    apply (G _ _ (fun vs => if list_eq_dec Z.eq_dec (map zlen vs) lens then Some (VBs vs) else None)).
  - destruct (nth_error (c_mem c) root) as [j|]; [|auto]. destruct (get j) as [y|] eqn:Ej; [|discriminate]. rewrite (M _ _ Ej). auto.
  - apply (G _ _ (fun vs => Some (VComm (mkComm (c_id c ++ [(n, color)])
            (split_members color (map (fun '(j, (col, k)) => (j, col, k)) (combine (c_mem c) vs))))))).
Qed.
Lemma reply_ext c n get get' i : (forall j, get j = get' j) -> reply c n get i = reply c n get' i.
Proof.
  intros H. destruct (reply c n get i) as [r|] eqn:E.
  - symmetry. eapply reply_mono; [|exact E]. intros j x. rewrite H. auto.
  - destruct (reply c n get' i) as [r|] eqn:E'; [|reflexivity]. rewrite <- E. eapply reply_mono; [|exact E']. intros j x. rewrite H. auto.
Qed.
Lemma nth_app {A} (l l' : list A) n x : nth_error l n = Some x -> nth_error (l ++ l') n = Some x.
Proof. intros H. rewrite nth_error_app1; [exact H|]. apply nth_error_Some. rewrite H. discriminate. Qed.

Definition act : Type := fs -> out (val * fs).

Section Exchange.
Context {A : Type}.
(* Files are compared up to E. *)
Variable E : fs -> fs -> Prop.
Hypothesis E_refl : forall f, E f f.
Hypothesis E_trans : forall f g h, E f g -> E g h -> E f h.
Hypothesis E_sym : forall f g, E f g -> E g f.
Variable N : nat.

Record ceq (s s' : config A) : Prop := {
  ceq_ps : forall i, g_ps s i = g_ps s' i;
  ceq_wait : forall i, g_wait s i = g_wait s' i;
  ceq_posts : forall c i, g_posts s c i = g_posts s' c i;
  ceq_fs : E (g_fs s) (g_fs s')
}.
Lemma ceq_refl s : ceq s s. Proof. constructor; auto. Qed.
Lemma ceq_trans a b c : ceq a b -> ceq b c -> ceq a c.
Proof. intros [A1 A2 A3 A4] [B1 B2 B3 B4]. constructor; intros; try congruence. eauto. Qed.
Lemma ceq_sym a b : ceq a b -> ceq b a.
Proof. intros [A1 A2 A3 A4]. constructor; intros; auto. Qed.

(* An action that respects E. *)
Definition respects (o : act) : Prop := forall f g r f', E f g -> o f = Ret (r, f') -> exists g', o g = Ret (r, g') /\ E f' g'.
(* Two actions of different ranks. *)
Definition commute (o1 o2 : act) : Prop :=
  (forall f r1 f1 r2 f2, o1 f = Ret (r1, f1) -> o2 f = Ret (r2, f2) ->
     exists g1 g2, o2 f1 = Ret (r2, g2) /\ o1 f2 = Ret (r1, g1) /\ E g1 g2) /\
  (forall f r2 f2 x, o2 f = Ret (r2, f2) -> o1 f2 = Ret x -> exists y, o1 f = Ret y).

Definition act_of (s : config A) (i : nat) : list (nat * act) :=
  match g_ps s i with Io o _ => [(i, o)] | _ => [] end.
Inductive run : nat -> config A -> list (nat * act) -> config A -> Prop :=
| run_nil s : run 0 s [] s
| run_cons s i s1 n l s2 : step N s i s1 -> run n s1 l s2 -> run (S n) s (act_of s i ++ l) s2.

Definition good (l : list (nat * act)) : Prop :=
  (forall i o, In (i, o) l -> respects o) /\
  (forall i o j o', In (i, o) l -> In (j, o') l -> i <> j -> commute o o').
Lemma good_incl l l' : incl l' l -> good l -> good l'.
Proof. intros I [G1 G2]. split; intros; eauto. Qed.

(* Building the state after a step. *)
Definition set1 {B} (f : nat -> B) (i : nat) (x : B) : nat -> B := fun j => if (j =? i)%nat then x else f j.
Lemma set1_same {B} (f : nat -> B) i x : set1 f i x i = x. Proof. unfold set1. rewrite Nat.eqb_refl. reflexivity. Qed.
Lemma set1_other {B} (f : nat -> B) i x j : j <> i -> set1 f i x j = f j.
Proof. intros H. unfold set1. destruct (Nat.eqb_spec j i); [contradiction|reflexivity]. Qed.
Definition post1 (f : comm -> nat -> list call) (c : comm) (i : nat) (x : call) : comm -> nat -> list call :=
  fun c' j => if comm_dec c' c then set1 (f c) i (f c i ++ [x]) j else f c' j.

(* A step depends on the state up to E only. *)
Lemma step_ceq s i s1 t : step N s i s1 -> ceq s t -> (forall o, In (i, o) (act_of s i) -> respects o) -> exists t1, step N t i t1 /\ ceq s1 t1.
Proof.
  intros H [C1 C2 C3 C4] R. destruct H as [c x k Hi Hp Hw Hm (O1 & O2 & O3) Hp' Hw' Hf Hq Hq'|c x k n r Hi Hp Hw Hmm Hl Hr (O1 & O2 & O3) Hp' Hw' Hf Hq|o k r f Hi Hp Hw Ho (O1 & O2 & O3) Hp' Hw' Hf Hq].
  - exists (mkConfig (g_ps s1) (g_wait s1) (g_posts s1) (g_fs t)). split.
    + apply step_start with c x k; cbn; try congruence; try (unfold others; cbn; repeat split); intros; rewrite <- ?C1, <- ?C2, <- ?C3; auto.
    + constructor; cbn; auto. rewrite Hf. auto.
  - exists (mkConfig (g_ps s1) (g_wait s1) (g_posts s1) (g_fs t)). split.
    + assert (Hr' : reply c n (fun j => nth_error (g_posts t c j) n) i = Some r).
      { rewrite <- Hr. apply reply_ext. intros j. rewrite C3. reflexivity. }
      apply step_leave with c x k n r; cbn; try congruence; try (unfold others; cbn; repeat split); intros; rewrite <- ?C1, <- ?C2, <- ?C3; auto.
    + constructor; cbn; auto. rewrite Hf. auto.
  - destruct (R o) with (f := g_fs s) (g := g_fs t) (r := r) (f' := f) as (g & Hg & EG); auto.
    { unfold act_of. rewrite Hp. left. reflexivity. }
    exists (mkConfig (g_ps s1) (g_wait s1) (g_posts s1) g). split.
    + apply step_io with o k r g; cbn; try congruence; try (unfold others; cbn; repeat split); intros; rewrite <- ?C1, <- ?C2, <- ?C3; auto.
    + constructor; cbn; auto. rewrite Hf. auto.
Qed.
Lemma act_of_ceq s t i : ceq s t -> act_of s i = act_of t i.
Proof. intros [C _ _ _]. unfold act_of. rewrite C. reflexivity. Qed.
Lemma run_ceq n s l s2 : run n s l s2 -> forall t, ceq s t -> good l -> exists t2, run n t l t2 /\ ceq s2 t2.
Proof.
  induction 1 as [s|s i s1 n l s2 H HR IH]; intros t C G; [exists t; split; [constructor|exact C]|].
  destruct (step_ceq _ _ _ _ H C) as (t1 & H1 & C1).
  { intros o Ho. apply G with i. apply in_or_app. left. exact Ho. }
  destruct (IH t1 C1) as (t2 & H2 & C2); [eapply good_incl; [|exact G]; apply incl_appr, incl_refl|].
  exists t2. split; [|exact C2]. rewrite (act_of_ceq _ _ _ C). econstructor; eauto.
Qed.

(* A rank can do at most one thing. *)
Lemma step_det s i s1 s2 : step N s i s1 -> step N s i s2 -> ceq s1 s2.
Proof.
  intros H H'. destruct H as [c x k Hi Hp Hw Hm (O1 & O2 & O3) Hp' Hw' Hf Hq Hq'|c x k n r Hi Hp Hw Hmm Hl Hr (O1 & O2 & O3) Hp' Hw' Hf Hq|o k r f Hi Hp Hw Ho (O1 & O2 & O3) Hp' Hw' Hf Hq];
  destruct H' as [d y h Ii Ip Iw Im (P1 & P2 & P3) Ip' Iw' If Iq Iq'|d y h m r' Ii Ip Iw Imm Il Ir (P1 & P2 & P3) Ip' Iw' If Iq|o' h r' f' Ii Ip Iw Io' (P1 & P2 & P3) Ip' Iw' If Iq]; try congruence;
  assert (HE : g_fs s1 = g_fs s2) by congruence;
  assert (HP : g_ps s1 i = g_ps s2 i) by (try congruence; assert (d = c) by congruence; subst d; assert (m = n) by congruence; subst m; congruence);
  (constructor; intros; [destruct (Nat.eq_dec i0 i) as [->|]; [exact HP|rewrite O1, P1; auto]|destruct (Nat.eq_dec i0 i) as [->|]; [congruence|rewrite O2, P2; auto]| |rewrite HE; apply E_refl];
   destruct (Nat.eq_dec i0 i) as [->|]; [|rewrite O3, P3; auto]; try congruence).
  assert (d = c) by congruence. subst d. destruct (comm_dec c0 c) as [->|]; [congruence|rewrite Hq', Iq'; auto].
Qed.

Lemma step_others (s : config A) i s1 : step N s i s1 -> others i s s1.
Proof. destruct 1; auto. Qed.
Lemma step_more (s : config A) i s1 c n : step N s i s1 -> more (fun j => nth_error (g_posts s c j) n) (fun j => nth_error (g_posts s1 c j) n).
Proof.
  intros H j x Hx. pose proof (step_others _ _ _ H) as (_ & _ & O). destruct (Nat.eq_dec j i) as [->|Hn]; [|rewrite O; auto].
  destruct H as [d y k Hi Hp Hw Hm _ Hp' Hw' Hf Hq Hq'|d y k m r Hi Hp Hw Hmm Hl Hr _ Hp' Hw' Hf Hq|o k r f Hi Hp Hw Ho _ Hp' Hw' Hf Hq]; try (rewrite Hq; exact Hx).
  destruct (comm_dec c d) as [->|Hd]; [rewrite Hq; apply nth_app; exact Hx|rewrite Hq'; auto].
Qed.
Definition merge (s1 s2 : config A) (j : nat) (g : fs) : config A :=
  mkConfig (set1 (g_ps s1) j (g_ps s2 j)) (set1 (g_wait s1) j (g_wait s2 j))
    (fun c => set1 (g_posts s1 c) j (g_posts s2 c j)) g.
Lemma merge_others s1 s2 j g : others j s1 (merge s1 s2 j g).
Proof. unfold others, merge; cbn. repeat split; intros; apply set1_other; auto. Qed.
Lemma step_after s i s1 j s2 g : step N s i s1 -> step N s j s2 -> i <> j ->
  match g_ps s j with Io o _ => exists r, o (g_fs s) = Ret (r, g_fs s2) /\ o (g_fs s1) = Ret (r, g) | _ => g = g_fs s1 end ->
  step N s1 j (merge s1 s2 j g).
Proof.
  intros Hi Hj Hn Hg. pose proof (step_others _ _ _ Hi) as (O1 & O2 & O3).
  destruct Hj as [c x k Hj Hp Hw Hm _ Hp' Hw' Hf Hq Hq'|c x k n r Hj Hp Hw Hmm Hl Hr _ Hp' Hw' Hf Hq|o k r f Hj Hp Hw Ho _ Hp' Hw' Hf Hq]; rewrite Hp in Hg.
  all: assert (J1 : g_ps s1 j = g_ps s j) by auto; assert (J2 : g_wait s1 j = g_wait s j) by auto; assert (J3 : forall c, g_posts s1 c j = g_posts s c j) by auto;
    pose proof (merge_others s1 s2 j g) as MO;
    assert (M1 : g_ps (merge s1 s2 j g) j = g_ps s2 j) by apply set1_same; assert (M2 : g_wait (merge s1 s2 j g) j = g_wait s2 j) by apply set1_same;
    assert (M3 : forall c, g_posts (merge s1 s2 j g) c j = g_posts s2 c j) by (intros; apply set1_same);
    assert (M4 : g_fs (merge s1 s2 j g) = g) by reflexivity; set (s3 := merge s1 s2 j g) in *; clearbody s3.
  - apply step_start with c x k; auto; try congruence; intros; rewrite M3, J3; auto.
  - apply step_leave with c x k n r; auto; try congruence; try (intros; rewrite ?M3, J3; auto; fail).
    eapply reply_mono; [|exact Hr]. apply (step_more s i s1 c n Hi).
  - destruct Hg as (r' & Hr1 & Hr2). assert (r' = r) by congruence. subst r'.
    apply step_io with o k r g; auto; try congruence.
Qed.
Lemma diamond s i s1 j s2 : step N s i s1 -> step N s j s2 -> i <> j ->
  (forall o o', In (i, o) (act_of s i) -> In (j, o') (act_of s j) -> commute o o') ->
  exists s3 s4, step N s1 j s3 /\ step N s2 i s4 /\ ceq s3 s4.
Proof.
  intros Hi Hj Hn HC. pose proof (step_others _ _ _ Hi) as (O1 & O2 & O3). pose proof (step_others _ _ _ Hj) as (P1 & P2 & P3).
  assert (HG : exists g g',
    match g_ps s j with Io o _ => exists r, o (g_fs s) = Ret (r, g_fs s2) /\ o (g_fs s1) = Ret (r, g) | _ => g = g_fs s1 end /\
    match g_ps s i with Io o _ => exists r, o (g_fs s) = Ret (r, g_fs s1) /\ o (g_fs s2) = Ret (r, g') | _ => g' = g_fs s2 end /\ E g g').
  { unfold act_of in HC.
    destruct Hi as [c x k Hi Hp Hw Hm _ Hp' Hw' Hf Hq Hq'|c x k n r Hi Hp Hw Hmm Hl Hr _ Hp' Hw' Hf Hq|o k r f Hi Hp Hw Ho _ Hp' Hw' Hf Hq];
    destruct Hj as [d y h Ii Ip Iw Im _ Ip' Iw' If Iq Iq'|d y h m r' Ii Ip Iw Imm Il Ir _ Ip' Iw' If Iq|o' h r' f' Ii Ip Iw Io' _ Ip' Iw' If Iq];
    rewrite Hp, Ip in *;
    try (exists (g_fs s1), (g_fs s2); split; [reflexivity|]; split; [reflexivity|]; rewrite Hf, If; apply E_refl);
    try (exists (g_fs s2), (g_fs s2); split; [exists r'; rewrite Hf, If; auto|]; split; [reflexivity|apply E_refl]);
    try (exists (g_fs s1), (g_fs s1); split; [reflexivity|]; split; [exists r; rewrite Hf, If; auto|apply E_refl]).
    destruct (HC o o') as [HC1 _]; [left; reflexivity|left; reflexivity|].
    destruct (HC1 (g_fs s) r f r' f' Ho Io') as (g1 & g2 & A1 & A2 & A3).
    exists g2, g1. split; [exists r'; rewrite Hf, If; auto|]. split; [exists r; rewrite Hf, If; auto|apply E_sym; exact A3]. }
  destruct HG as (g & g' & G1 & G2 & G3).
  exists (merge s1 s2 j g), (merge s2 s1 i g').
  split; [eapply step_after; eauto|]. split; [eapply step_after; eauto|].
  constructor; unfold merge; cbn; auto; intros; unfold set1.
  - destruct (Nat.eqb_spec i0 j), (Nat.eqb_spec i0 i); subst; try contradiction; auto. rewrite O1, P1; auto.
  - destruct (Nat.eqb_spec i0 j), (Nat.eqb_spec i0 i); subst; try contradiction; auto. rewrite O2, P2; auto.
  - destruct (Nat.eqb_spec i0 j), (Nat.eqb_spec i0 i); subst; try contradiction; auto. rewrite O3, P3; auto.
Qed.

(* ------------------------------------------------ where a phase ends *)
(* All ranks have finished, or all are inside the same operation that needs
   every rank. *)
Definition needs_all (x : call) : Prop :=
  match x with KBarrier | KAllreduce _ _ _ | KAllgather _ _ | KSplit _ _ => True | _ => False end.
Definition stop (s : config A) : Prop :=
  (forall i, (i < N)%nat -> exists a, g_ps s i = Done a) \/
  (exists c n, (forall i, (i < N)%nat -> In i (c_mem c)) /\
     forall i, (i < N)%nat -> exists x k, g_ps s i = Coll c x k /\ needs_all x /\ g_wait s i = true /\
       length (g_posts s c i) = S n /\ nth_error (g_posts s c i) n = Some x).
Lemma stop_ceq s s' : ceq s s' -> stop s -> stop s'.
Proof.
  intros [C1 C2 C3 C4] [H|(c & n & H1 & H2)].
  - left. intros i Hi. rewrite <- C1. auto.
  - right. exists c, n. split; auto. intros i Hi. rewrite <- C1, <- C2, <- C3. auto.
Qed.
Lemma gather_all {B} (sel : call -> option B) l get r j : gather sel l get = Some r -> In j l -> get j <> None.
Proof.
  unfold gather. revert r. induction l as [|i l IH]; intros r H Hj; [destruct Hj|]. cbn in H.
  destruct (get i) as [x|] eqn:Ei; [|discriminate]. destruct (sel x); [|discriminate]. destruct (all_some (map _ l)) eqn:El; [|discriminate].
  destruct Hj as [<-|Hj]; [congruence|]. eapply IH; eauto.
Qed.
Lemma reply_all c n get i x r j : get i = Some x -> needs_all x -> reply c n get i = Some r -> In j (c_mem c) -> get j <> None.
Proof.
  intros Hg Hx Hr Hj. unfold reply in Hr. rewrite Hg in Hr. destruct x; try contradiction;
  match type of Hr with match ?g with _ => _ end = _ => destruct g eqn:Eg; [|discriminate] end; eapply gather_all; eauto.
Qed.

(* Before the end of the phase no rank runs ahead. *)
Lemma not_past s i0 e i s1 : step N s i0 e -> stop e -> step N s i s1 -> i <> i0 -> False.
Proof.
  intros H0 HS Hi Hn. pose proof (step_others _ _ _ H0) as (O1 & O2 & O3).
  assert (HiN : (i < N)%nat) by (destruct Hi; auto). assert (Hi0N : (i0 < N)%nat) by (destruct H0; auto).
  destruct HS as [HD|(c & n & Hm & HW)].
  - destruct (HD i HiN) as (a & Ha). rewrite O1 in Ha by auto. destruct Hi; congruence.
  - destruct (HW i HiN) as (x & k & Hk & Hx & Hww & Hl & Hnx). destruct (HW i0 Hi0N) as (x0 & k0 & Hk0 & Hx0 & Hw0 & Hl0 & _).
    rewrite O1 in Hk by auto. rewrite O2 in Hww by auto. rewrite O3 in Hl, Hnx by auto.
    destruct Hi as [d y h _ Hp Hw2 _ _ Hp' Hw' _ Hq Hq'|d y h q r _ Hp Hw2 Hmm Hll Hr _ Hp' Hw' _ Hq|o h r f _ Hp Hw2 _ _ Hp' Hw' _ Hq]; try congruence.
    assert (d = c /\ y = x) as [-> ->] by (split; congruence). assert (q = n) by congruence. subst q.
    assert (Hne : nth_error (g_posts s c i0) n <> None) by (eapply (reply_all c n (fun j => nth_error (g_posts s c j) n) i x r i0); eauto).
    apply nth_error_Some in Hne.
    destruct H0 as [d y h0 _ Hp0 Hw3 _ _ Hp0' Hw0' _ Hq0 Hq0'|d y h0 q0 r0 _ Hp0 Hw3 _ _ _ _ Hp0' Hw0' _ Hq0|o h0 r0 f _ Hp0 Hw3 _ _ Hp0' Hw0' _ Hq0]; try congruence.
    assert (d = c) by congruence. subst d. rewrite Hq0, app_length in Hl0. cbn in Hl0. lia.
Qed.

Lemma good_app_r l l' : good (l ++ l') -> good l'.
Proof. apply good_incl. apply incl_appr, incl_refl. Qed.
(* At the end of a phase nobody is about to act. *)
Lemma act_in m s l e i o : run m s l e -> stop e -> (i < N)%nat -> In (i, o) (act_of s i) -> In (i, o) l.
Proof.
  induction 1 as [s|s j s1 m l e H HR IH]; intros HS Hi Ho.
  - exfalso. unfold act_of in Ho. destruct HS as [HD|(c & n & _ & HW)].
    + destruct (HD i Hi) as (a & Ha). rewrite Ha in Ho. destruct Ho.
    + destruct (HW i Hi) as (x & k & Hk & _). rewrite Hk in Ho. destruct Ho.
  - apply in_or_app. destruct (Nat.eq_dec i j) as [->|Hn]; [left; exact Ho|]. right. apply IH; auto.
    pose proof (step_others _ _ _ H) as (O1 & _ & _). unfold act_of in *. rewrite O1; auto.
Qed.

Lemma exchange : forall m s l e, run (S m) s l e -> stop e -> good l -> forall i s1, step N s i s1 ->
  exists l' e', run m s1 l' e' /\ ceq e e' /\ incl l' l.
Proof.
  induction m as [|m IH]; intros s l e HR HS HG i s1 Hi.
  - inversion HR as [|? i0 s0 ? l0 ? H0 HR0]; subst. inversion HR0; subst.
    destruct (Nat.eq_dec i i0) as [->|Hn]; [|exfalso; exact (not_past s i0 e i s1 H0 HS Hi Hn)].
    exists [], s1. split; [constructor|]. split; [eapply step_det; eauto|]. intros x [].
  - inversion HR as [|? i0 s0 ? l0 ? H0 HR0]; subst. destruct (Nat.eq_dec i i0) as [->|Hn].
    + destruct (run_ceq _ _ _ _ HR0 s1) as (e' & HR1 & C1); [eapply step_det; eauto|eapply good_app_r; eauto|].
      exists l0, e'. split; [exact HR1|]. split; [exact C1|]. apply incl_appr, incl_refl.
    + assert (HiN : (i < N)%nat) by (destruct Hi; auto).
      destruct (diamond s i0 s0 i s1 H0 Hi) as (s3 & s4 & D1 & D2 & D3); auto.
      { intros o o' Ho Ho'. destruct HG as [_ G2]. apply G2 with i0 i; auto.
        - apply in_or_app. left. exact Ho.
        - eapply act_in; eauto. }
      destruct (IH s0 l0 e HR0 HS (good_app_r _ _ HG) i s3 D1) as (l' & e' & R' & C' & I').
      destruct (run_ceq _ _ _ _ R' s4 D3) as (e2 & R2 & C2); [eapply good_incl; [exact I'|eapply good_app_r; eauto]|].
      exists (act_of s1 i0 ++ l'), e2. split; [econstructor; eauto|]. split; [eapply ceq_trans; eauto|].
      assert (Ha : act_of s1 i0 = act_of s i0).
      { pose proof (step_others _ _ _ Hi) as (O1 & _ & _). unfold act_of. rewrite O1; auto. }
      rewrite Ha. apply incl_app; [apply incl_appl, incl_refl|apply incl_appr; exact I'].
Qed.

Lemma run_safe m s l e : run m s l e -> stop e -> good l -> safe N s.
Proof.
  induction 1 as [s|s j s1 m l e H HR IH]; intros HS HG i Hi.
  - destruct HS as [HD|(c & n & Hm & HW)]; [destruct (HD i Hi) as (a & Ha); rewrite Ha; exact I|]. destruct (HW i Hi) as (x & k & Hk & _). rewrite Hk. auto.
  - specialize (IH HS (good_app_r _ _ HG) i Hi). pose proof (step_others _ _ _ H) as (O1 & _ & _).
    destruct (Nat.eq_dec i j) as [->|Hn].
    + destruct H as [d y h0 _ Hp0 Hw3 Hm _ Hp0' Hw0' _ Hq0 Hq0'|d y h0 q0 r0 _ Hp0 Hw3 Hmm _ Hr0 _ Hp0' Hw0' _ Hq0|o h0 r0 f _ Hp0 Hw3 Ho _ Hp0' Hw0' _ Hq0]; rewrite Hp0; eauto.
    + rewrite O1 in IH by auto. destruct (g_ps s i) as [a|w|c x k|o k] eqn:Ei; auto.
      destruct IH as (y & Hy). destruct H as [d yy h0 _ Hp0 Hw3 Hm _ Hp0' Hw0' Hf Hq0 Hq0'|d yy h0 q0 r0 _ Hp0 Hw3 _ _ Hr0 _ Hp0' Hw0' Hf Hq0|o0 h0 r0 f _ Hp0 Hw3 Ho _ Hp0' Hw0' Hf Hq0]; try (rewrite Hf in Hy; eauto; fail).
      destruct HG as [_ G2]. rewrite Hf in Hy.
      assert (Cm : commute o o0).
      { apply G2 with i j; auto.
        - apply in_or_app. right. eapply act_in; eauto. unfold act_of. rewrite O1 by auto. rewrite Ei. left. reflexivity.
        - apply in_or_app. left. unfold act_of. rewrite Hp0. left. reflexivity. }
      destruct Cm as [_ Cm]. eapply Cm; eauto.
Qed.

Theorem ends_run P : forall m s l e, run m s l e -> stop e -> good l ->
  (forall s', ceq e s' -> ends N P s') -> ends N P s.
Proof.
  induction m as [|m IH]; intros s l e HR HS HG HP.
  - inversion HR; subst. apply HP. apply ceq_refl.
  - apply ends_step.
    + eapply run_safe; eauto.
    + inversion HR; subst. eauto.
    + intros i s' Hi. destruct (exchange _ _ _ _ HR HS HG _ _ Hi) as (l' & e' & R' & C' & I').
      apply (IH s' l' e' R'); [eapply stop_ceq; eauto|eapply good_incl; eauto|]. intros s'' C''. apply HP. eapply ceq_trans; eauto.
Qed.
End Exchange.
