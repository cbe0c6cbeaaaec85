(* Running a parallel program one complete collective operation at a time. *)
From Coq.Strings Require Import Byte String.
From Coq Require Import List ZArith Lia Bool ZifyBool ZifyNat.
From Verif Require Import Base BaseFacts FS Attr Block Par ParFacts.
Import ListNotations.
Open Scope Z_scope.

Section Sync.
Context {A : Type}.
Variable N : nat.
Notation config := (config A).
Notation step := (@step A N).
Notation run := (@run A N).

Lemma run_app m s l s1 : run m s l s1 -> forall m' l' s2, run m' s1 l' s2 -> run (m + m') s (l ++ l') s2.
Proof.
  induction 1 as [s|s i s1 n l s2 H HR IH]; intros m' l' s3 H'; [exact H'|]. cbn [plus]. rewrite <- app_assoc. econstructor; eauto.
Qed.

(* Replies depend on the members only. *)
Lemma gather_ext {B} (sel : call -> option B) l get get' : (forall j, In j l -> get j = get' j) -> gather sel l get = gather sel l get'.
Proof. intros H. unfold gather. f_equal. apply map_ext_in. intros j Hj. rewrite (H j Hj). reflexivity. Qed.
Lemma reply_members c n get get' i : In i (c_mem c) -> (forall j, In j (c_mem c) -> get j = get' j) -> reply c n get i = reply c n get' i.
Proof.
  intros Hi H. unfold reply. rewrite <- (H i Hi).
  destruct (get i) as [x|]; [|reflexivity]. rewrite !(gather_ext _ _ get get') by exact H.
  destruct x; try reflexivity.
  - destruct (index (c_mem c) i =? root)%nat; [reflexivity|]. destruct (nth_error (c_mem c) root) as [j|] eqn:E; [|reflexivity].
    rewrite (H j); [reflexivity|]. eapply nth_error_In; eauto.
  - destruct (nth_error (c_mem c) root) as [j|] eqn:E; [|reflexivity]. rewrite (H j); [reflexivity|]. eapply nth_error_In; eauto.
Qed.

Record quiet (s : config) : Prop := {
  q_wait : forall i, g_wait s i = false;
  q_matched : matched s
}.

(* All members start the operation. *)
Lemma start_run c (x : nat -> call) : forall l s, NoDup l -> incl l (c_mem c) -> (forall i, In i (c_mem c) -> (i < N)%nat) ->
  (forall i, In i l -> (exists k, g_ps s i = Coll c (x i) k) /\ g_wait s i = false) ->
  exists s', run (length l) s [] s' /\ (forall i, g_ps s' i = g_ps s i) /\ g_fs s' = g_fs s /\
    (forall i, In i l -> g_wait s' i = true /\ g_posts s' c i = g_posts s c i ++ [x i]) /\
    (forall i, ~ In i l -> g_wait s' i = g_wait s i /\ g_posts s' c i = g_posts s c i) /\
    (forall d i, d <> c -> g_posts s' d i = g_posts s d i).
Proof.
  induction l as [|i l IH]; intros s Hnd Hin HN Hat.
  - exists s. split; [constructor|]. split; [auto|]. split; [auto|]. split; [intros i []|]. split; auto.
  - inversion_clear Hnd. destruct (Hat i (or_introl eq_refl)) as ((k & Hk) & Hw).
    set (s1 := mkConfig (g_ps s) (set1 (g_wait s) i true) (post1 (g_posts s) c i (x i)) (g_fs s)).
    assert (P1 : forall j, g_posts s1 c j = if (j =? i)%nat then g_posts s c i ++ [x i] else g_posts s c j).
    { intros j. unfold s1, post1; cbn. destruct (comm_dec c c); [reflexivity|contradiction]. }
    assert (P2 : forall d j, d <> c -> g_posts s1 d j = g_posts s d j).
    { intros d j Hd. unfold s1, post1; cbn. destruct (comm_dec d c); [contradiction|reflexivity]. }
    assert (St : step s i s1).
    { apply step_start with c (x i) k; auto; try reflexivity.
      - apply HN. apply Hin. left. reflexivity.
      - apply Hin. left. reflexivity.
      - unfold others. split; [reflexivity|]. split; [intros j Hj; apply set1_other; auto|].
        intros d j Hj. destruct (comm_dec d c) as [->|Hd]; [rewrite P1; destruct (Nat.eqb_spec j i); [contradiction|reflexivity]|auto].
      - apply set1_same.
      - rewrite P1, Nat.eqb_refl. reflexivity. }
    destruct (IH s1) as (s2 & R & Q1 & Q2 & Q3 & Q4 & Q5); auto.
    { intros j Hj. apply Hin. right. auto. }
    { intros j Hj. destruct (Hat j (or_intror Hj)) as (Hkj & Hwj). split; [exact Hkj|]. unfold s1; cbn. rewrite set1_other; [auto|]. intros ->. contradiction. }
    exists s2. split.
    { replace (@nil (nat * act)) with (act_of s i ++ []) by (unfold act_of; rewrite Hk; reflexivity). econstructor; eauto. }
    split; [intros j; rewrite Q1; reflexivity|]. split; [rewrite Q2; reflexivity|]. split; [|split].
    + intros j [<-|Hj].
      * destruct (Q4 i) as [W P]; [auto|]. rewrite W, P, P1, Nat.eqb_refl. split; [unfold s1; cbn; apply set1_same|reflexivity].
      * destruct (Q3 j Hj) as [W P]. rewrite W, P, P1. split; [reflexivity|]. destruct (Nat.eqb_spec j i); [subst; contradiction|reflexivity].
    + intros j Hj. destruct (Q4 j) as [W P]; [intros X; apply Hj; right; auto|]. rewrite W, P, P1. unfold s1; cbn.
      assert (j <> i) by (intros ->; apply Hj; left; reflexivity).
      rewrite set1_other by auto. split; [reflexivity|]. destruct (Nat.eqb_spec j i); [contradiction|reflexivity].
    + intros d j Hd. rewrite Q5, P2; auto.
Qed.

(* All members leave it. *)
Lemma leave_run c n (r : nat -> val) : forall l s, NoDup l -> incl l (c_mem c) -> (forall i, In i (c_mem c) -> (i < N)%nat) ->
  (forall i, In i l -> (exists x k, g_ps s i = Coll c x k) /\ g_wait s i = true /\ length (g_posts s c i) = S n /\
     reply c n (fun j => nth_error (g_posts s c j) n) i = Some (r i)) ->
  exists s', run (length l) s [] s' /\ g_fs s' = g_fs s /\
    (forall i, In i l -> g_wait s' i = false /\ forall c' x k, g_ps s i = Coll c' x k -> g_ps s' i = k (r i)) /\
    (forall i, ~ In i l -> g_wait s' i = g_wait s i /\ g_ps s' i = g_ps s i) /\
    (forall d i, g_posts s' d i = g_posts s d i).
Proof.
  induction l as [|i l IH]; intros s Hnd Hin HN Hat.
  - exists s. split; [constructor|]. split; [auto|]. split; [intros i []|]. split; auto.
  - inversion_clear Hnd. destruct (Hat i (or_introl eq_refl)) as ((x & k & Hk) & Hw & Hl & Hr).
    set (s1 := mkConfig (set1 (g_ps s) i (k (r i))) (set1 (g_wait s) i false) (g_posts s) (g_fs s)).
    assert (St : step s i s1).
    { apply step_leave with c x k n (r i); auto; try reflexivity.
      - apply HN. apply Hin. left. reflexivity.
      - apply Hin. left. reflexivity.
      - unfold others. split; [intros j Hj; apply set1_other; auto|]. split; [intros j Hj; apply set1_other; auto|]. reflexivity.
      - apply set1_same.
      - apply set1_same. }
    destruct (IH s1) as (s2 & R & Q2 & Q3 & Q4 & Q5); auto.
    { intros j Hj. apply Hin. right. auto. }
    { intros j Hj. destruct (Hat j (or_intror Hj)) as (Hkj & Hwj & Hlj & Hrj). assert (j <> i) by (intros ->; contradiction).
      unfold s1; cbn. rewrite !set1_other by auto. auto. }
    exists s2. split.
    { replace (@nil (nat * act)) with (act_of s i ++ []) by (unfold act_of; rewrite Hk; reflexivity). econstructor; eauto. }
    split; [rewrite Q2; reflexivity|]. split; [|split].
    + intros j [<-|Hj].
      * destruct (Q4 i) as [W P]; [auto|]. rewrite W, P. unfold s1; cbn. rewrite !set1_same. split; [reflexivity|]. intros c' x' k' Hk'. rewrite Hk in Hk'. injection Hk' as _ _ <-. reflexivity.
      * destruct (Q3 j Hj) as [W P]. split; [exact W|]. intros c' x' k' Hk'. eapply P. unfold s1; cbn. rewrite set1_other; [eauto|]. intros ->. contradiction.
    + intros j Hj. destruct (Q4 j) as [W P]; [intros X; apply Hj; right; auto|]. rewrite W, P. unfold s1; cbn.
      assert (j <> i) by (intros ->; apply Hj; left; reflexivity). rewrite !set1_other by auto. auto.
    + intros d j. rewrite Q5. reflexivity.
Qed.

(* A communicator of this machine. *)
Record comm_ok (c : comm) : Prop := {
  co_nodup : NoDup (c_mem c);
  co_lt : forall i, In i (c_mem c) -> (i < N)%nat;
  co_ne : c_mem c <> []
}.

(* The members of c are at the operation with arguments x, and would get r. *)
Definition ready (ps : nat -> prog A) (c : comm) (x : nat -> call) (k : nat -> val -> prog A) (r : nat -> nat -> val) : Prop :=
  (forall i, In i (c_mem c) -> ps i = Coll c (x i) (k i)) /\
  (forall i j, In i (c_mem c) -> In j (c_mem c) -> compat (x i) (x j)) /\
  (forall n i, In i (c_mem c) -> reply c n (fun j => Some (x j)) i = Some (r n i)).

(* All have started. *)
Lemma started s c x k r ps : quiet s -> comm_ok c -> ready ps c x k r -> (forall i, (i < N)%nat -> g_ps s i = ps i) ->
  exists m n s1, run m s [] s1 /\ (forall i, g_ps s1 i = g_ps s i) /\ g_fs s1 = g_fs s /\
    (forall i, In i (c_mem c) -> g_wait s1 i = true /\ length (g_posts s1 c i) = S n /\ nth_error (g_posts s1 c i) n = Some (x i) /\
       reply c n (fun j => nth_error (g_posts s1 c j) n) i = Some (r n i)) /\
    (forall i, ~ In i (c_mem c) -> g_wait s1 i = false) /\ matched s1.
Proof.
  intros [Qw Qm] [Hnd HN Hne] (Rp & Rc & Rr) Hat.
  destruct (start_run c x (c_mem c) s Hnd (incl_refl _) HN) as (s1 & R & P1 & P2 & P3 & P4 & P5).
  { intros i Hi. split; [|apply Qw]. exists (k i). rewrite Hat by auto. apply Rp. auto. }
  destruct (c_mem c) as [|i0 rest] eqn:Em; [contradiction|]. rewrite <- Em in *. assert (Hi0 : In i0 (c_mem c)) by (rewrite Em; left; reflexivity).
  set (n := length (g_posts s c i0)).
  assert (Hlen : forall i, In i (c_mem c) -> length (g_posts s c i) = n) by (intros i Hi; apply (Qm c i i0 Hi Hi0)).
  assert (Hnth : forall i, In i (c_mem c) -> nth_error (g_posts s1 c i) n = Some (x i)).
  { intros i Hi. destruct (P3 i Hi) as [_ ->]. rewrite nth_error_app2 by (rewrite Hlen; auto). rewrite Hlen by auto. rewrite Nat.sub_diag. reflexivity. }
  exists (length (c_mem c)), n, s1. split; [exact R|]. split; [exact P1|]. split; [exact P2|]. split; [|split].
  - intros i Hi. destruct (P3 i Hi) as [W P]. split; [exact W|]. split; [rewrite P, app_length, Hlen by auto; cbn; lia|]. split; [auto|].
    rewrite <- (Rr n i Hi). apply reply_members; auto.
  - intros i Hi. destruct (P4 i Hi) as [W _]. rewrite W. apply Qw.
  - intros d i j Hi Hj. destruct (comm_dec d c) as [->|Hd].
    + destruct (Qm c i j Hi Hj) as [L C]. destruct (P3 i Hi) as [_ Pi]. destruct (P3 j Hj) as [_ Pj].
      split; [rewrite Pi, Pj, !app_length; cbn; lia|]. intros q y z Hy Hz. rewrite Pi in Hy. rewrite Pj in Hz.
      destruct (Nat.ltb_spec q n) as [Hq|Hq].
      * rewrite nth_error_app1 in Hy by (rewrite Hlen; auto). rewrite nth_error_app1 in Hz by (rewrite Hlen; auto). eapply C; eauto.
      * rewrite nth_error_app2 in Hy by (rewrite Hlen; auto). rewrite nth_error_app2 in Hz by (rewrite Hlen; auto). rewrite Hlen in Hy, Hz by auto.
        destruct (q - n)%nat; cbn in *; [|destruct n0; discriminate]. injection Hy as <-. injection Hz as <-. auto.
    + rewrite !P5 by auto. apply Qm; auto.
Qed.

(* Programs of the members after the operation. *)
Definition after (ps : nat -> prog A) (c : comm) (k : nat -> val -> prog A) (r : nat -> nat -> val) (n : nat) (ps' : nat -> prog A) : Prop :=
  (forall i, In i (c_mem c) -> ps' i = k i (r n i)) /\ (forall i, (i < N)%nat -> ~ In i (c_mem c) -> ps' i = ps i).

Lemma coll_run s c x k r ps : quiet s -> comm_ok c -> ready ps c x k r -> (forall i, (i < N)%nat -> g_ps s i = ps i) ->
  exists m n s', run m s [] s' /\ quiet s' /\ g_fs s' = g_fs s /\
    (forall i, In i (c_mem c) -> g_ps s' i = k i (r n i)) /\ (forall i, (i < N)%nat -> ~ In i (c_mem c) -> g_ps s' i = ps i).
Proof.
  intros Q HC HR Hat. destruct (started s c x k r ps Q HC HR Hat) as (m & n & s1 & R & P1 & P2 & P3 & P4 & P5).
  destruct HC as [Hnd HN Hne]. destruct HR as (Rp & Rc & Rr).
  destruct (leave_run c n (r n) (c_mem c) s1 Hnd (incl_refl _) HN) as (s2 & R2 & L1 & L2 & L3 & L4).
  { intros i Hi. destruct (P3 i Hi) as (W & Ln & Nx & Rx). split; [|auto]. exists (x i), (k i). rewrite P1, Hat by auto. auto. }
  exists (m + length (c_mem c))%nat, n, s2. split; [apply (run_app _ _ [] _ R _ []); exact R2|].
  split; [|split; [rewrite L1; exact P2|split]].
  - constructor.
    + intros i. destruct (in_dec Nat.eq_dec i (c_mem c)) as [Hi|Hi]; [apply (L2 i Hi)|]. destruct (L3 i Hi) as [W _]. rewrite W. auto.
    + intros d i j Hi Hj. rewrite !L4. apply P5; auto.
  - intros i Hi. destruct (L2 i Hi) as [_ L]. eapply L. rewrite P1, Hat by auto. apply Rp. exact Hi.
  - intros i Hi Hn. destruct (L3 i Hn) as [_ L]. rewrite L, P1. auto.
Qed.

(* ------------------------------------------------ symbolic execution *)
Definition goes (ps : nat -> prog A) (f : fs) (Q : list (nat * act) -> (nat -> prog A) -> fs -> Prop) : Prop :=
  forall s, quiet s -> (forall i, (i < N)%nat -> g_ps s i = ps i) -> g_fs s = f ->
    exists m l s' ps' f', run m s l s' /\ quiet s' /\ (forall i, (i < N)%nat -> g_ps s' i = ps' i) /\ g_fs s' = f' /\ Q l ps' f'.

Lemma goes_done ps f (Q : list (nat * act) -> (nat -> prog A) -> fs -> Prop) : Q [] ps f -> goes ps f Q.
Proof. intros H s Hq Hp Hf. exists 0%nat, [], s, ps, f. split; [constructor|]. auto. Qed.
Lemma goes_ext ps ps1 f (Q : list (nat * act) -> (nat -> prog A) -> fs -> Prop) : (forall i, (i < N)%nat -> ps i = ps1 i) -> goes ps1 f Q -> goes ps f Q.
Proof. intros H HG s Hq Hp Hf. apply HG; auto. intros i Hi. rewrite <- H; auto. Qed.
Lemma goes_mono ps f (Q Q' : list (nat * act) -> (nat -> prog A) -> fs -> Prop) : (forall l p g, Q l p g -> Q' l p g) -> goes ps f Q -> goes ps f Q'.
Proof. intros H HG s Hq Hp Hf. destruct (HG s Hq Hp Hf) as (m & l & s' & ps' & f' & R & Q1 & Q2 & Q3 & Q4). exists m, l, s', ps', f'. auto 10. Qed.
Lemma goes_seq ps f (Q1 Q2 : list (nat * act) -> (nat -> prog A) -> fs -> Prop) : goes ps f Q1 ->
  (forall l ps' f', Q1 l ps' f' -> goes ps' f' (fun l' => Q2 (l ++ l'))) -> goes ps f Q2.
Proof.
  intros H1 H2 s Hq Hp Hf. destruct (H1 s Hq Hp Hf) as (m & l & s1 & ps1 & f1 & R1 & A1 & A2 & A3 & A4).
  destruct (H2 l ps1 f1 A4 s1 A1 A2 A3) as (m2 & l2 & s2 & ps2 & f2 & R2 & B1 & B2 & B3 & B4).
  exists (m + m2)%nat, (l ++ l2), s2, ps2, f2. split; [eapply run_app; eauto|]. auto.
Qed.
Lemma goes_coll c x k r ps f (Q : list (nat * act) -> (nat -> prog A) -> fs -> Prop) : comm_ok c -> ready ps c x k r ->
  (forall n ps', after ps c k r n ps' -> goes ps' f Q) -> goes ps f Q.
Proof.
  intros HC HR HG s Hq Hp Hf. destruct (coll_run s c x k r ps Hq HC HR Hp) as (m & n & s1 & R & Q1 & Q2 & Q3 & Q4).
  destruct (HG n (g_ps s1)) with (s := s1) as (m2 & l2 & s2 & ps2 & f2 & R2 & B); auto.
  { split; auto. }
  { congruence. }
  exists (m + m2)%nat, l2, s2, ps2, f2. split; [apply (run_app _ _ [] _ R); exact R2|exact B].
Qed.
Lemma goes_io i o k r f1 ps f (Q : list (nat * act) -> (nat -> prog A) -> fs -> Prop) : (i < N)%nat -> ps i = Io o k -> o f = Ret (r, f1) ->
  goes (set1 ps i (k r)) f1 (fun l => Q ((i, o) :: l)) -> goes ps f Q.
Proof.
  intros Hi Hk Ho HG s Hq Hp Hf. destruct Hq as [Qw Qm].
  set (s1 := mkConfig (set1 (g_ps s) i (k r)) (g_wait s) (g_posts s) f1).
  assert (St : step s i s1).
  { apply step_io with o k r f1; auto; try reflexivity.
    - rewrite Hp; auto.
    - rewrite Hf. exact Ho.
    - unfold others. split; [intros j Hj; apply set1_other; auto|]. split; reflexivity.
    - apply set1_same.
    - apply Qw. }
  destruct (HG s1) as (m2 & l2 & s2 & ps2 & f2 & R2 & B); auto.
  { constructor; auto. }
  { intros j Hj. unfold s1, set1; cbn. destruct (j =? i)%nat; auto. }
  exists (S m2), ((i, o) :: l2), s2, ps2, f2. split; [|exact B].
  change ((i, o) :: l2) with ([(i, o)] ++ l2). replace [(i, o)] with (act_of s i) by (unfold act_of; rewrite Hp, Hk by auto; reflexivity). econstructor; eauto.
Qed.

(* ------------------------------------------------ conclusions about all schedules *)
(* s is at ps and f, perhaps with an operation to be left first. *)
Definition reach (s : config) (ps : nat -> prog A) (f : fs) : Prop :=
  exists m s0, run m s [] s0 /\ quiet s0 /\ (forall i, (i < N)%nat -> g_ps s0 i = ps i) /\ g_fs s0 = f.
Lemma reach_quiet s ps f : quiet s -> (forall i, (i < N)%nat -> g_ps s i = ps i) -> g_fs s = f -> reach s ps f.
Proof. intros. exists 0%nat, s. split; [constructor|]. auto. Qed.

Variable E : fs -> fs -> Prop.
Hypothesis E_refl : forall f, E f f.
Hypothesis E_trans : forall f g h, E f g -> E g h -> E f h.
Hypothesis E_sym : forall f g, E f g -> E g f.

Lemma matched_ceq (s s' : config) : ceq E s s' -> matched s -> matched s'.
Proof. intros [C1 C2 C3 C4] M c i j Hi Hj. rewrite <- !C3. apply M; auto. Qed.

Lemma ends_final (P : (nat -> A) -> fs -> Prop) s ps f : reach s ps f ->
  goes ps f (fun l ps' f' => good E l /\ exists res, (forall i, (i < N)%nat -> ps' i = Done (res i)) /\ forall g, E f' g -> P res g) ->
  ends N (fun res s => P res (g_fs s)) s.
Proof.
  intros (m & s0 & R & Q & At & F) HG. destruct (HG s0 Q At F) as (m2 & l & s1 & ps' & f' & R2 & [Qw Qm] & Q2 & Q3 & G & res & HD & HP).
  apply (ends_run E E_refl E_trans E_sym N _ (m + m2) s l s1).
  - apply (run_app _ _ [] _ R). exact R2.
  - left. intros i Hi. exists (res i). rewrite Q2; auto.
  - exact G.
  - intros s' C. apply ends_done with res.
    + intros i Hi. destruct C as [C1 _ _ _]. rewrite <- C1, Q2; auto.
    + eapply matched_ceq; eauto.
    + apply HP. rewrite <- Q3. apply C.
Qed.

Lemma good_nil : good E []. Proof. split; intros; contradiction. Qed.
Lemma ends_phase (P : (nat -> A) -> config -> Prop) s ps f : reach s ps f ->
  goes ps f (fun l ps' f' => good E l /\ exists c x k r, comm_ok c /\ (forall i, (i < N)%nat -> In i (c_mem c)) /\
    ready ps' c x k r /\ (forall i, needs_all (x i)) /\
    forall g n s', E f' g -> reach s' (fun i => k i (r n i)) g -> ends N P s') ->
  ends N P s.
Proof.
  intros (m & s0 & R & Q & At & F) HG.
  destruct (HG s0 Q At F) as (m2 & l & s1 & ps' & f' & R2 & Q1 & Q2 & Q3 & G & c & x & k & r & HC & HF & HR & HX & HP).
  destruct (started s1 c x k r ps' Q1 HC HR Q2) as (m3 & n & s2 & R3 & P1 & P2 & P3 & P4 & P5).
  assert (Hl : l = l ++ []) by (symmetry; apply app_nil_r).
  apply (ends_run E E_refl E_trans E_sym N _ (m + (m2 + m3)) s l s2).
  - apply (run_app _ _ [] _ R). rewrite Hl. apply (run_app _ _ _ _ R2). exact R3.
  - right. exists c, n. split; [exact HF|]. intros i Hi. destruct (P3 i (HF i Hi)) as (W & Ln & Nx & Rx). exists (x i), (k i).
    split; [rewrite P1, Q2 by auto; apply HR; auto|]. auto.
  - exact G.
  - intros s' C.
    assert (HL : exists s3, run (length (c_mem c)) s2 [] s3 /\ quiet s3 /\ (forall i, (i < N)%nat -> g_ps s3 i = k i (r n i)) /\ g_fs s3 = f').
    { destruct HC as [Hnd HN Hne]. destruct HR as (Rp & Rc & Rr).
      destruct (leave_run c n (r n) (c_mem c) s2 Hnd (incl_refl _) HN) as (s3 & R4 & L1 & L2 & L3 & L4).
      { intros i Hi. destruct (P3 i Hi) as (W & Ln & Nx & Rx). split; [|auto]. exists (x i), (k i). rewrite P1, Q2 by auto. auto. }
      exists s3. split; [exact R4|]. split; [constructor|split].
      - intros i. destruct (in_dec Nat.eq_dec i (c_mem c)) as [Hi|Hi]; [apply (L2 i Hi)|]. destruct (L3 i Hi) as [W _]. rewrite W. auto.
      - intros d i j Hi Hj. rewrite !L4. apply P5; auto.
      - intros i Hi. destruct (L2 i (HF i Hi)) as [_ L]. eapply L. rewrite P1, Q2 by auto. apply Rp. auto.
      - rewrite L1, P2. exact Q3. }
    destruct HL as (s3 & R4 & [Qw4 Qm4] & At4 & F4).
    destruct (run_ceq E N _ _ _ _ R4 s' C) as (s4 & R5 & C5); [apply good_nil|]. pose proof C5 as [D1 D2 D3 D4].
    apply (HP (g_fs s4) n s'); [rewrite <- F4; exact D4|].
    exists (length (c_mem c)), s4. split; [exact R5|]. split; [constructor|split].
    + intros i. rewrite <- D2. auto.
    + eapply matched_ceq; eauto.
    + intros i Hi. rewrite <- D1. auto.
    + reflexivity.
Qed.
End Sync.
