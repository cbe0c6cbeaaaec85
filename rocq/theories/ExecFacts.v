(* One schedule, executed: used to show that a property fails. *)
From Coq.Strings Require Import Byte String.
From Coq Require Import List ZArith Lia Bool ZifyBool ZifyNat.
From Verif Require Import Base BaseFacts FS Block Par MpiSpec ParFacts.
Import ListNotations.
Open Scope Z_scope.

Section Exec.
Context {A : Type}.
Variable N : nat.
Notation config := (config A).

Definition member (i : nat) (l : list nat) : bool := existsb (Nat.eqb i) l.
Lemma member_In i l : member i l = true -> In i l.
Proof. intros H. apply existsb_exists in H. destruct H as (x & Hx & E). apply Nat.eqb_eq in E. subst. exact Hx. Qed.

(* Computed when the operation starts, so that execution stays cheap. *)
Definition postf (f : comm -> nat -> list call) (c : comm) (i : nat) (x : call) : comm -> nat -> list call :=
  let l := f c i ++ [x] in fun d => if comm_dec d c then set1 (f d) i l else f d.
Definition stepf (s : config) (i : nat) : option config :=
  match g_ps s i with
  | Coll c x k =>
      if negb (member i (c_mem c)) then None
      else if g_wait s i then
        match length (g_posts s c i) with
        | S n => match reply c n (fun j => nth_error (g_posts s c j) n) i with
                 | Some r => Some (mkConfig (set1 (g_ps s) i (k r)) (set1 (g_wait s) i false) (g_posts s) (g_fs s))
                 | None => None
                 end
        | O => None
        end
      else Some (mkConfig (g_ps s) (set1 (g_wait s) i true) (postf (g_posts s) c i x) (g_fs s))
  | Io o k =>
      if g_wait s i then None
      else match o (g_fs s) with
           | Ret (r, f) => Some (mkConfig (set1 (g_ps s) i (k r)) (set1 (g_wait s) i false) (g_posts s) f)
           | _ => None
           end
  | _ => None
  end.

Lemma stepf_step s i s' : (i < N)%nat -> stepf s i = Some s' -> step N s i s'.
Proof.
  intros Hi. unfold stepf. destruct (g_ps s i) as [x|w|c x k|o k] eqn:Ep; try discriminate.
  - destruct (member i (c_mem c)) eqn:Em; [|discriminate]. apply member_In in Em. cbn [negb]. destruct (g_wait s i) eqn:Ew.
    + destruct (length (g_posts s c i)) as [|n] eqn:El; [discriminate|]. destruct (reply _ _ _ _) as [r|] eqn:Er; [|discriminate]. intros H. injection H as <-.
      eapply step_leave; eauto; cbn [g_ps g_wait g_posts g_fs]; try apply set1_same; auto.
      split; [intros j Hj; apply set1_other; auto|]. split; [intros j Hj; apply set1_other; auto|auto].
    + intros H. injection H as <-. eapply step_start; eauto; cbn [g_ps g_wait g_posts g_fs]; try apply set1_same; auto.
      * split; [auto|]. split; [intros j Hj; apply set1_other; auto|]. intros c' j Hj. cbn [g_posts]. unfold postf. destruct (comm_dec c' c) as [->|]; [apply set1_other; auto|reflexivity].
      * unfold postf. destruct (comm_dec c c); [apply set1_same|contradiction].
      * intros c' Hc. unfold postf. destruct (comm_dec c' c); [contradiction|reflexivity].
  - destruct (g_wait s i) eqn:Ew; [discriminate|]. destruct (o (g_fs s)) as [[r f]| |] eqn:Eo; try discriminate. intros H. injection H as <-.
    eapply step_io; eauto; cbn [g_ps g_wait g_posts g_fs]; try apply set1_same; auto.
    split; [intros j Hj; apply set1_other; auto|]. split; [intros j Hj; apply set1_other; auto|auto].
Qed.

(* The first of the ranks in l that can move. *)
Fixpoint first_step (s : config) (l : list nat) : option config :=
  match l with
  | [] => None
  | i :: r => match stepf s i with Some s' => Some s' | None => first_step s r end
  end.
Fixpoint exec (fuel : nat) (s : config) : config :=
  match fuel with
  | O => s
  | S k => match first_step s (seq 0 N) with Some s' => exec k s' | None => s end
  end.
Lemma first_step_step s l s' : (forall i, In i l -> (i < N)%nat) -> first_step s l = Some s' -> exists i, (i < N)%nat /\ stepf s i = Some s'.
Proof.
  induction l as [|i l IH]; intros Hl H; [discriminate|]. cbn in H. destruct (stepf s i) as [s1|] eqn:E; [injection H as ->; exists i; split; [apply Hl; left; reflexivity|exact E]|].
  apply IH; [intros j Hj; apply Hl; right; exact Hj|exact H].
Qed.
Lemma ends_exec P fuel : forall s, ends N P s -> ends N P (exec fuel s).
Proof.
  induction fuel as [|fuel IH]; intros s H; [exact H|]. cbn [exec]. destruct (first_step s (seq 0 N)) as [s'|] eqn:E; [|exact H].
  apply first_step_step in E; [|intros i Hi; apply in_seq in Hi; lia]. destruct E as (i & Hi & E). apply IH. destruct H as [res HD _ _|_ _ HS].
  - exfalso. unfold stepf in E. rewrite HD in E by auto. discriminate.
  - apply (HS i). apply stepf_step; auto.
Qed.

Definition finished (s : config) : bool := forallb (fun i => match g_ps s i with Done _ => true | _ => false end) (seq 0 N).
Lemma ends_exec_done P fuel s : ends N P s -> finished (exec fuel s) = true ->
  exists res, (forall i, (i < N)%nat -> g_ps (exec fuel s) i = Done (res i)) /\ P res (exec fuel s).
Proof.
  intros H HF. apply (ends_exec P fuel) in H. destruct H as [res HD _ HP|_ (i & s' & St) _]; [eauto|]. exfalso. unfold finished in HF. rewrite forallb_forall in HF.
  destruct St as [c x k A1 A2|c x k n0 r A1 A2|o k r f A1 A2]; specialize (HF i ltac:(apply in_seq; lia)); rewrite A2 in HF; discriminate.
Qed.
End Exec.
