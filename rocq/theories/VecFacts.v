(* A program logic for many ranks running the same program. *)
From Coq.Strings Require Import Byte String.
From Coq Require Import List ZArith Lia Bool ZifyBool ZifyNat.
From Verif Require Import Base BaseFacts FS Attr Block Par ParFacts SyncFacts.
Import ListNotations.
Open Scope Z_scope.

Definition memb (l : list nat) (i : nat) : bool := existsb (Nat.eqb i) l.
Lemma memb_In l i : memb l i = true <-> In i l.
Proof.
  unfold memb. rewrite existsb_exists. split.
  - intros (j & Hj & E). apply Nat.eqb_eq in E. subst. exact Hj.
  - intros H. exists i. split; [exact H|apply Nat.eqb_refl].
Qed.

Section Vec.
Variable N : nat.

(* The ranks in S run p and then go on; the others do not move. *)
Definition does {B} (S : nat -> bool) (p : nat -> M B) (f : fs) (Q : list (nat * act) -> (nat -> B) -> fs -> Prop) : Prop :=
  forall A (ps : nat -> prog A) (h : nat -> B -> prog A),
    (forall i, (i < N)%nat -> S i = true -> ps i = p i A (h i)) ->
    goes N ps f (fun l ps' f' => exists res,
      (forall i, (i < N)%nat -> S i = true -> ps' i = h i (res i)) /\
      (forall i, (i < N)%nat -> S i = false -> ps' i = ps i) /\ Q l res f').

Lemma does_ret {B} S (b : nat -> B) f (Q : list (nat * act) -> (nat -> B) -> fs -> Prop) : Q [] b f -> does S (fun i => mret (b i)) f Q.
Proof. intros H A ps h Hp. apply goes_done. exists b. auto. Qed.

Lemma does_bind {B C} S (p : nat -> M B) (q : nat -> B -> M C) f Q1 Q2 : does S p f Q1 ->
  (forall l res f', Q1 l res f' -> does S (fun i => q i (res i)) f' (fun l' => Q2 (l ++ l'))) ->
  does S (fun i => mbind (p i) (q i)) f Q2.
Proof.
  intros H1 H2 A ps h Hp. eapply goes_seq.
  - apply (H1 A ps (fun i b => q i b A (h i))). exact Hp.
  - intros l ps' f' (res & R1 & R2 & R3). eapply goes_mono; [|apply (H2 l res f' R3 A ps' h); exact R1].
    cbn beta. intros l' ps2 f2 (res2 & T1 & T2 & T3). exists res2. split; [exact T1|]. split; [|exact T3].
    intros i Hi HS. rewrite T2, R2; auto.
Qed.

Lemma does_mono {B} S (p : nat -> M B) f (Q Q' : list (nat * act) -> (nat -> B) -> fs -> Prop) : (forall l res f', Q l res f' -> Q' l res f') -> does S p f Q -> does S p f Q'.
Proof.
  intros HQ H A ps h Hp. eapply goes_mono; [|apply (H A ps h Hp)]. cbn beta. intros l ps' f' (res & R1 & R2 & R3). exists res. auto.
Qed.

Lemma does_ext {B} S (p p' : nat -> M B) f Q : (forall i, (i < N)%nat -> S i = true -> p i = p' i) -> does S p' f Q -> does S p f Q.
Proof. intros E H A ps h Hp. apply H. intros i Hi HS. rewrite Hp, E; auto. Qed.
Lemma does_set {B} S S' (p : nat -> M B) f Q : (forall i, (i < N)%nat -> S i = S' i) -> does S' p f Q -> does S p f Q.
Proof.
  intros E H A ps h Hp. eapply goes_mono; [|apply (H A ps h)].
  - cbn beta. intros l ps' f' (res & R1 & R2 & R3). exists res. split; [|split; [|exact R3]]; intros i Hi HS; [apply R1|apply R2]; auto; rewrite <- E; auto.
  - intros i Hi HS. apply Hp; auto. rewrite E; auto.
Qed.

Lemma does_local {B} S (x : nat -> out B) b f (Q : list (nat * act) -> (nat -> B) -> fs -> Prop) : (forall i, (i < N)%nat -> S i = true -> x i = Ret (b i)) -> Q [] b f ->
  does S (fun i => local (x i)) f Q.
Proof. intros H HQ. apply does_ext with (fun i => mret (b i)); [intros i Hi HS; rewrite H; auto|]. apply does_ret. exact HQ. Qed.

(* First some of the ranks, then the others. *)
Lemma does_split {B} S S1 (p : nat -> M B) f Q1 Q : does (fun i => S i && S1 i) p f Q1 ->
  (forall l res f', Q1 l res f' -> does (fun i => S i && negb (S1 i)) p f' (fun l' res' => Q (l ++ l') (fun i => if S1 i then res i else res' i))) ->
  does S p f Q.
Proof.
  intros H1 H2 A ps h Hp. eapply goes_seq.
  - apply (H1 A ps h). intros i Hi HS. apply Hp; auto. lia.
  - cbn beta. intros l ps' f' (res & R1 & R2 & R3).
    eapply goes_mono; [|apply (H2 l res f' R3 A ps' h); intros i Hi HS; rewrite R2; [apply Hp|..]; auto; lia].
    cbn beta. intros l' ps2 f2 (res2 & T1 & T2 & T3). eexists. split; [|split; [|exact T3]].
    + intros i Hi HS. cbn beta. destruct (S1 i) eqn:E; [rewrite T2; [apply R1|..]; auto; lia|apply T1; auto; lia].
    + intros i Hi HS. rewrite T2, R2; auto; lia.
Qed.

(* One rank acts on the files. *)
Lemma does_io i o r f f1 (Q : list (nat * act) -> (nat -> val) -> fs -> Prop) : (i < N)%nat -> o f = Ret (r, f1) -> Q [(i, o)] (fun _ => r) f1 -> does (Nat.eqb i) (fun _ => mio o) f Q.
Proof.
  intros Hi Ho HQ A ps h Hp. apply goes_io with (i := i) (o := o) (k := h i) (r := r) (f1 := f1); auto.
  - rewrite Hp; auto. apply Nat.eqb_refl.
  - apply goes_done. exists (fun _ => r). split; [|split; [|exact HQ]].
    + intros j Hj E. apply Nat.eqb_eq in E. subst j. apply set1_same.
    + intros j Hj E. apply set1_other. intros ->. rewrite Nat.eqb_refl in E. discriminate.
Qed.

(* The ranks in S each take part in one operation, on the communicators C. *)
Definition calls (S : nat -> bool) (C : nat -> comm) (x : nat -> call) (r : nat -> nat -> val) : Prop :=
  forall i, (i < N)%nat -> S i = true ->
    comm_ok N (C i) /\ In i (c_mem (C i)) /\ (forall j, In j (c_mem (C i)) -> S j = true /\ C j = C i /\ compat (x i) (x j)) /\
    forall n, reply (C i) n (fun j => Some (x j)) i = Some (r n i).

Lemma colls_run S C x r f : calls S C x r -> forall A (k : nat -> val -> prog A) cs ps, NoDup cs ->
  (forall c, In c cs -> exists i, (i < N)%nat /\ S i = true /\ C i = c) ->
  (forall i, (i < N)%nat -> S i = true -> In (C i) cs -> ps i = Coll (C i) (x i) (k i)) ->
  goes N ps f (fun l ps' f' => l = [] /\ f' = f /\ exists nn : comm -> nat,
    (forall i, (i < N)%nat -> S i = true -> In (C i) cs -> ps' i = k i (r (nn (C i)) i)) /\
    (forall i, (i < N)%nat -> ~ (S i = true /\ In (C i) cs) -> ps' i = ps i)).
Proof.
  intros HC A k. induction cs as [|c cs IH]; intros ps Hnd Hex Hps.
  - apply goes_done. split; [reflexivity|]. split; [reflexivity|]. exists (fun _ => 0%nat). split; [intros i _ _ []|]. auto.
  - inversion_clear Hnd. destruct (Hex c (or_introl eq_refl)) as (i0 & Hi0 & S0 & C0).
    destruct (HC i0 Hi0 S0) as (K1 & _ & K2 & _). rewrite C0 in K1, K2.
    assert (KM : forall i, In i (c_mem c) -> (i < N)%nat /\ S i = true /\ C i = c) by (intros i Hi; split; [apply K1; auto|]; destruct (K2 i Hi) as (Q1 & Q2 & _); auto).
    apply goes_coll with c x k (fun n i => r n i); [exact K1| |].
    { split; [|split].
      - intros i Hi. destruct (KM i Hi) as (Q1 & Q2 & Q3). rewrite Hps; [rewrite Q3; reflexivity|auto|auto|left; auto].
      - intros i j Hi Hj. destruct (KM i Hi) as (Q1 & Q2 & Q3). destruct (HC i Q1 Q2) as (_ & _ & K3 & _). rewrite Q3 in K3. apply (K3 j Hj).
      - intros n i Hi. destruct (KM i Hi) as (Q1 & Q2 & Q3). destruct (HC i Q1 Q2) as (_ & _ & _ & K3). rewrite Q3 in K3. apply K3. }
    intros n ps' [A1 A2].
    assert (Hout : forall i, (i < N)%nat -> S i = true -> In i (c_mem c) <-> C i = c).
    { intros i Hi Hs. split; [intros X; apply KM; exact X|]. intros E. destruct (HC i Hi Hs) as (_ & X & _). rewrite E in X. exact X. }
    eapply goes_mono; [|apply (IH ps')]; auto.
    + cbn beta. intros l ps2 f2 (-> & -> & nn & B1 & B2). split; [reflexivity|]. split; [reflexivity|].
      exists (fun d => if comm_dec d c then n else nn d). split.
      * intros i Hi Hs Hin. destruct (comm_dec (C i) c) as [E|E].
        { rewrite B2; auto; [|intros [_ X]; rewrite E in X; contradiction]. rewrite A1; [reflexivity|]. apply Hout; auto. }
        { apply B1; auto. destruct Hin as [X|X]; [congruence|exact X]. }
      * intros i Hi Hn. rewrite B2; auto; [|intros [X Y]; apply Hn; split; [exact X|right; exact Y]].
        apply A2; auto. intros X. apply Hn. destruct (KM i X) as (_ & Q2 & Q3). split; [exact Q2|left; auto].
    + intros d Hd. apply Hex. right. exact Hd.
    + intros i Hi Hs Hin. rewrite A2; [apply Hps; auto; right; exact Hin|auto|].
      intros X. destruct (KM i X) as (_ & _ & Q3). rewrite Q3 in Hin. contradiction.
Qed.

Lemma does_coll S C x r f (Q : list (nat * act) -> (nat -> val) -> fs -> Prop) : calls S C x r -> (forall nn : comm -> nat, Q [] (fun i => r (nn (C i)) i) f) -> does S (fun i => mcoll (C i) (x i)) f Q.
Proof.
  intros HC HQ A ps h Hp. set (cs := nodup comm_dec (map C (filter S (seq 0 N)))).
  assert (Hin : forall i, (i < N)%nat -> S i = true -> In (C i) cs).
  { intros i Hi Hs. apply nodup_In. apply in_map. apply filter_In. split; [apply in_seq; lia|exact Hs]. }
  eapply goes_mono; [|apply (colls_run S C x r f HC A h cs ps)].
  - cbn beta. intros l ps' f' (-> & -> & nn & B1 & B2). eexists. split; [|split; [|apply (HQ nn)]].
    + intros i Hi Hs. apply B1; auto.
    + intros i Hi Hs. apply B2; auto. intros [X _]. congruence.
  - apply NoDup_nodup.
  - intros c Hc. apply nodup_In in Hc. apply in_map_iff in Hc. destruct Hc as (i & E & Hi). apply filter_In in Hi. destruct Hi as [Hi Hs]. apply in_seq in Hi. exists i. split; [lia|]. auto.
  - intros i Hi Hs _. rewrite Hp; auto.
Qed.
End Vec.
