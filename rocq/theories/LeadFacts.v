(* Calls one after the other. A call that ends with an agreement of all ranks
   has completed everywhere before any rank acts again. *)
From Coq.Strings Require Import Byte String.
From Coq Require Import List ZArith Lia Bool ZifyBool ZifyNat.
From Verif Require Import Base BaseFacts Dtype Cast Array FS Fmt Attr Block Spec Par MpiSpec ParFacts SyncFacts VecFacts CollFacts Mpi AggFacts LoopFacts.
Import ListNotations.
Open Scope Z_scope.

Lemma quiet_launch {A} (ps : nat -> prog A) f : quiet (launch ps f).
Proof. constructor; [reflexivity|]. intros c i j _ _. split; [reflexivity|]. intros k x y H. destruct k; discriminate. Qed.

Section Lead.
Variables (N : nat) (id : list (nat * Z)).
Hypothesis HN : (0 < N)%nat.
Notation all := (fun _ : nat => true).
Notation world := (mkComm id (seq 0 N)).

(* s can run to a state where all ranks are at ps, with actions l. *)
Definition comes {A} (s : config A) (l : list (nat * act)) (ps : nat -> prog A) (f : fs) : Prop :=
  exists m s0, run N m s l s0 /\ quiet s0 /\ (forall i, (i < N)%nat -> g_ps s0 i = ps i) /\ g_fs s0 = f.
Lemma comes_goes {A} s l (ps : nat -> prog A) f Q : comes s l ps f -> goes N ps f Q -> exists l' ps' f', comes s (l ++ l') ps' f' /\ Q l' ps' f'.
Proof.
  intros (m & s0 & R & H1 & H2 & H3) HG. destruct (HG s0 H1 H2 H3) as (m2 & l2 & s2 & ps2 & f2 & R2 & B1 & B2 & B3 & B4).
  exists l2, ps2, f2. split; [|exact B4]. exists (m + m2)%nat, s2. split; [apply (run_app _ _ _ _ _ R); exact R2|]. auto.
Qed.
Lemma comes_ext {A} s l (ps ps' : nat -> prog A) f : (forall i, (i < N)%nat -> ps i = ps' i) -> comes s l ps f -> comes s l ps' f.
Proof. intros H (m & s0 & R & H1 & H2 & H3). exists m, s0. split; [exact R|]. split; [exact H1|]. split; [|exact H3]. intros i Hi. rewrite H2, H; auto. Qed.

(* With actions l behind them the ranks run p; whenever they go on, all have
   finished p with results res and file system g for which Q holds. *)
Definition leads {B} (l : list (nat * act)) (p : nat -> M B) (f : fs) (Q : (nat -> B) -> fs -> Prop) : Prop :=
  forall A (h : nat -> B -> prog A) (P : (nat -> A) -> config A -> Prop) s, comes s l (fun i => p i A (h i)) f ->
    (forall res g s', Q res g -> comes s' [] (fun i => h i (res i)) g -> ends N P s') -> ends N P s.

Lemma leads_ret {B} (b : nat -> B) f (Q : (nat -> B) -> fs -> Prop) : Q b f -> leads [] (fun i => mret (b i)) f Q.
Proof. intros HQ A h P s HC HP. apply (HP b f s HQ). exact HC. Qed.
Lemma leads_mono {B} l (p : nat -> M B) f (Q Q' : (nat -> B) -> fs -> Prop) : (forall res g, Q res g -> Q' res g) -> leads l p f Q -> leads l p f Q'.
Proof. intros H HL A h P s HC HP. apply (HL A h P s HC). intros res g s' HQ. apply HP. auto. Qed.
Lemma leads_ext {B} l (p p' : nat -> M B) f (Q : (nat -> B) -> fs -> Prop) : (forall i, (i < N)%nat -> p i = p' i) -> leads l p' f Q -> leads l p f Q.
Proof. intros H HL A h P s HC HP. apply (HL A h P s); [|exact HP]. eapply comes_ext; [|exact HC]. intros i Hi. cbv beta. rewrite H by exact Hi. reflexivity. Qed.
Lemma leads_does {B C} l (p : nat -> M B) (q : nat -> B -> M C) f Q1 (Q : (nat -> C) -> fs -> Prop) : does N all p f Q1 ->
  (forall l' res f', Q1 l' res f' -> leads (l ++ l') (fun i => q i (res i)) f' Q) -> leads l (fun i => mbind (p i) (q i)) f Q.
Proof.
  intros HD HL A h P s HC HP.
  destruct (comes_goes s l _ f _ HC (HD A (fun i => mbind (p i) (q i) A (h i)) (fun i b => q i b A (h i)) (fun i Hi _ => eq_refl))) as (l' & ps' & f' & HC' & res & R1 & _ & HQ).
  apply (HL l' res f' HQ A h P s); [|exact HP]. eapply comes_ext; [|exact HC']. intros i Hi. apply R1; auto.
Qed.
Lemma leads_bind {B C} l (p : nat -> M B) (q : nat -> B -> M C) f Q1 (Q : (nat -> C) -> fs -> Prop) : leads l p f Q1 ->
  (forall res f', Q1 res f' -> leads [] (fun i => q i (res i)) f' Q) -> leads l (fun i => mbind (p i) (q i)) f Q.
Proof.
  intros HD HL A h P s HC HP. apply (HD A (fun i b => q i b A (h i)) P s HC). intros res g s' HQ HC'. apply (HL res g HQ A h P s' HC' HP).
Qed.

Variable E : fs -> fs -> Prop.
Hypothesis E_refl : forall f, E f f.
Hypothesis E_trans : forall f g h, E f g -> E g h -> E f h.
Hypothesis E_sym : forall f g, E f g -> E g f.

Lemma leads_coll {B} l x r (q : nat -> val -> M B) f (Q : (nat -> B) -> fs -> Prop) : calls N all (fun _ => world) x r -> (forall i, needs_all (x i)) -> good E l ->
  (forall g n, E f g -> leads [] (fun i => q i (r n i)) g Q) -> leads l (fun i => mbind (mcoll world (x i)) (q i)) f Q.
Proof.
  intros HX HA G HL A h P s (m & s1 & R2 & Q1 & Q2 & Q3) HP.
  destruct (HX 0%nat HN eq_refl) as (HC & _).
  assert (HF : forall i, (i < N)%nat -> In i (c_mem world)) by (intros i Hi; apply in_seq; lia).
  assert (FH : forall i, In i (c_mem world) -> (i < N)%nat) by (intros i Hi; apply in_seq in Hi; lia).
  set (k := fun i v => q i v A (h i)).
  assert (HR : ready (fun i => mbind (mcoll world (x i)) (q i) A (h i)) world x k r).
  { split; [reflexivity|]. split.
    - intros i j Hi Hj. destruct (HX i (FH i Hi) eq_refl) as (_ & _ & H & _). apply (H j Hj).
    - intros n i Hi. destruct (HX i (FH i Hi) eq_refl) as (_ & _ & _ & H). apply H. }
  destruct (started N s1 world x k r _ Q1 HC HR Q2) as (m3 & n & s2 & R3 & P1 & P2 & P3 & P4 & P5).
  assert (Hl : l = l ++ []) by (symmetry; apply app_nil_r).
  apply (ends_run E E_refl E_trans E_sym N _ (m + m3) s l s2).
  - rewrite Hl. apply (run_app _ _ _ _ _ R2). exact R3.
  - right. exists world, n. split; [exact HF|]. intros i Hi. destruct (P3 i (HF i Hi)) as (W & Ln & Nx & Rx). exists (x i), (k i).
    split; [rewrite P1, Q2 by auto; reflexivity|]. auto.
  - exact G.
  - intros s' C.
    assert (HL3 : exists s3, run N (length (c_mem world)) s2 [] s3 /\ quiet s3 /\ (forall i, (i < N)%nat -> g_ps s3 i = k i (r n i)) /\ g_fs s3 = f).
    { destruct HC as [Hnd HNn Hne]. destruct HR as (Rp & Rc & Rr).
      destruct (leave_run N world n (r n) (c_mem world) s2 Hnd (incl_refl _) HNn) as (s3 & R4 & L1 & L2 & L3 & L4).
      { intros i Hi. destruct (P3 i Hi) as (W & Ln & Nx & Rx). split; [|auto]. exists (x i), (k i). rewrite P1, Q2 by auto. auto. }
      exists s3. split; [exact R4|]. split; [constructor|split].
      - intros i. destruct (in_dec Nat.eq_dec i (c_mem world)) as [Hi|Hi]; [apply (L2 i Hi)|]. destruct (L3 i Hi) as [W _]. rewrite W. auto.
      - intros d i j Hi Hj. rewrite !L4. apply P5; auto.
      - intros i Hi. destruct (L2 i (HF i Hi)) as [_ L]. eapply L. rewrite P1, Q2 by auto. reflexivity.
      - rewrite L1, P2. exact Q3. }
    destruct HL3 as (s3 & R4 & [Qw4 Qm4] & At4 & F4).
    destruct (run_ceq E N _ _ _ _ R4 s' C) as (s4 & R5 & C5); [apply good_nil|]. pose proof C5 as [D1 D2 D3 D4].
    apply (HL (g_fs s4) n ltac:(rewrite <- F4; exact D4) A h P s'); [|exact HP].
    exists (length (c_mem world)), s4. split; [exact R5|]. split; [constructor|split].
    + intros i. rewrite <- D2. auto.
    + eapply matched_ceq; eauto.
    + intros i Hi. rewrite <- D1. apply At4. exact Hi.
    + reflexivity.
Qed.

Lemma leads_agree {B} l rt (q : nat -> Z -> M B) f (Q : (nat -> B) -> fs -> Prop) : good E l ->
  (forall g res, E f g -> (forall i, (i < N)%nat -> res i = verdict world rt) -> leads [] (fun i => q i (res i)) g Q) ->
  leads l (fun i => mbind (agree world i (rt i)) (q i)) f Q.
Proof.
  intros G HL. assert (FW : family N all (fun _ => world)) by (apply world_family; exact HN).
  set (z := fun i => if rt i =? 0 then 0 else Z.of_nat (rank_in world i) + 1). set (root := err_root world rt).
  change (leads l (fun i => mbind (mcoll world (KAllreduce CInt RMax [z i])) (fun v => mbind (one v) (fun root => mbind (err_tail world i (rt i) [] root) (fun x => mbind (let '(r, _) := x in mret r) (q i))))) f Q).
  apply (leads_coll l (fun i => KAllreduce CInt RMax [z i]) (fun _ _ => VZs [root])); [|intros; exact I|exact G|].
  - apply calls_intro; [exact FW|intros; cbn; auto|]. intros i n Hi HS. unfold reply. cbv iota beta.
    rewrite (gather_all _ (fun j => KAllreduce CInt RMax [z j]) (fun j => [z j])) by reflexivity. unfold reduce. cbn [length seq map].
    unfold column. rewrite map_map. cbn [nth]. change (fun x => z x) with z. unfold z. rewrite (err_reduce N all (fun _ => world) rt i FW Hi HS). reflexivity.
  - intros g n Eg. cbn [one]. change (leads [] (fun i => mbind (err_tail world i (rt i) [] root) (fun x => mbind (let '(r, _) := x in mret r) (q i))) g Q).
    apply leads_does with (fun l' res f' => l' = [] /\ f' = g /\ forall i, (i < N)%nat -> fst (res i) = verdict world rt).
    + unfold root. apply (does_err_tail N all (fun _ => world) rt (fun _ => [])); [exact FW|]. intros res HR. split; [reflexivity|]. split; [reflexivity|]. intros i Hi. rewrite HR by auto. unfold outcome, verdict. destruct (last_bad _ _); reflexivity.
    + intros l' res f' (-> & -> & R). cbn [app]. apply leads_ext with (fun i => q i (fst (res i))); [intros i Hi; destruct (res i); reflexivity|]. apply (HL g (fun i => fst (res i)) Eg R).
Qed.

(* A call that ends with an agreement: l and f' are the actions and the file
   system before it. *)
Definition ran (l : list (nat * act)) (f f' : fs) : Prop := exists A (s s' : config A) m, run N m s l s' /\ g_fs s = f /\ g_fs s' = f'.
Lemma does_ran {B} (p : nat -> M B) f Q : does N all p f Q -> does N all p f (fun l res f' => Q l res f' /\ ran l f f').
Proof.
  intros H A ps h Hp s Hq Hps Hf. destruct (H A ps h Hp s Hq Hps Hf) as (mm & l & s' & ps' & f' & R & Q1 & Q2 & Q3 & res & Q4 & Q5 & Q6).
  exists mm, l, s', ps', f'. split; [exact R|]. split; [exact Q1|]. split; [exact Q2|]. split; [exact Q3|]. exists res. split; [exact Q4|]. split; [exact Q5|]. split; [exact Q6|].
  exists A, s, s', mm. auto.
Qed.
Definition fenced {B} (p : nat -> M B) (f : fs) (Q0 : list (nat * act) -> (nat -> B) -> fs -> Prop) : Prop :=
  forall Q : (nat -> B) -> fs -> Prop, (forall l res f', ran l f f' -> Q0 l res f' -> exists E : fs -> fs -> Prop, (forall f, E f f) /\ (forall f g h, E f g -> E g h -> E f h) /\ (forall f g, E f g -> E g f) /\
      good E l /\ forall g, E f' g -> Q res g) -> leads [] p f Q.

Lemma fenced_leads {B} (p : nat -> M B) f Q0 (Q : (nat -> B) -> fs -> Prop) : fenced p f Q0 ->
  (forall l res f', ran l f f' -> Q0 l res f' -> good E l /\ forall g, E f' g -> Q res g) -> leads [] p f Q.
Proof. intros HF H. apply HF. intros l res f' R X. exists E. destruct (H l res f' R X). auto. Qed.

(* From the start of a program. *)
Lemma ends_leads {B} (m : nat -> M B) f (P : (nat -> B) -> fs -> Prop) : leads [] m f P -> ends N (fun res s => P res (g_fs s)) (launch (fun i => whole (m i)) f).
Proof.
  intros HL. apply (HL B (fun _ => Done)).
  - exists 0%nat, (launch (fun i => whole (m i)) f). split; [constructor|]. split; [apply quiet_launch|]. split; reflexivity.
  - intros res g s' HQ (k & s0 & R & H1 & H2 & H3).
    apply (ends_run eq (@eq_refl _) (@eq_trans _) (@eq_sym _) N _ k s' [] s0 R).
    + left. intros i Hi. exists (res i). apply H2. exact Hi.
    + apply good_nil.
    + intros s1 [C1 C2 C3 C4]. apply ends_done with res; [intros i Hi; rewrite <- C1; apply H2; exact Hi| |rewrite <- C4, H3; exact HQ].
      destruct H1 as [_ M1]. intros c i j Hi Hj. rewrite <- !C3. apply M1; auto.
Qed.
End Lead.
