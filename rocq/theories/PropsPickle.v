(* C80: Columns that are pickled, and several Columns of one block. *)
From Coq.Strings Require Import Byte String.
From Coq Require Import List ZArith Lia Bool.
From Verif Require Import Base BaseFacts Dtype Cast Array FS Fmt Attr Block Pack Spec HistSpec Ex PropsHeader PropsHist
  AttrSpec Pickle PickleSpec PickleFacts.
Import ListNotations.
Open Scope Z_scope.

(* Calls on all Columns of a new block, in any order, are calls on one table:
   a Column obtained by pickling, before or after writes, with or without a
   flush, reads and writes the rows the original does, and releasing any of
   them loses nothing. The recorded checksums count everything written as long
   as whoever writes has checksums that do: the Columns and the header for
   which this is so are in the state (v_sums, p_sums). Partial: no Column grows
   while another has something to save, and no Column writes that does not know
   all files; and with two writers the checksums are not right. The theorems
   below show why. *)
Theorem C80_columns_partial : forall me e junk nbase f base d nmemb sizes os, let dt := dtype_normalize me d in
  (forall i, e_me (e i) = me) -> (forall i, itemsize me dt * nmemb <= e_chunk (e i)) -> nul_free base -> nul_free d ->
  new_block (e 0%nat) f base d nmemb sizes -> history_legal me dt nmemb sizes os ->
  exists f1 b1 xs f' cs' st', big_block_create (e 0%nat) f base (Some d) nmemb (zlen sizes) sizes = Ret (f1, Some b1) /\
    prun e junk nbase base (f1, [Some b1]) os = Ret (xs, (f', cs')) /\ pspecs me dt nmemb (pstart sizes) os xs st' /\
    views_hold st' cs'.
Proof. exact columns_run. Qed.

Ltac ex_step := match goal with |- pop_ok ?me ?dt ?n ?s ?vs ?op =>
    let s' := eval vm_compute in s in let vs' := eval vm_compute in vs in change (pop_ok me dt n s' vs' op) end;
  cbn [pop_ok view_at nth_error];
  repeat match goal with
  | |- True => exact I
  | |- hop_ok _ _ _ _ (HWrite _ _ _) => apply ex_hwrite; lia
  | |- hop_ok _ _ _ _ (HRead _ _ _) => apply ex_hread; lia
  | |- hop_ok _ _ _ _ (HGrow _) => split; [split; [|split]; [repeat constructor; ex_neg|reflexivity|reflexivity]|ex_neg]
  | |- hop_ok _ _ _ _ _ => exact I
  | |- _ <> None => discriminate
  | |- exists v, _ = Some v /\ _ => eexists; split; reflexivity
  | |- forall j v, _ => intros [|[|[|[|j]]]] v Hj Ev; cbn in Ev; try discriminate Ev; try (injection Ev as <-; reflexivity); exfalso; apply Hj; reflexivity
  | |- _ /\ _ => split
  end.
Ltac ex_nul := let X := fresh in intros X; repeat (destruct X as [X|X]; [discriminate X|]); exact X.
Lemma ex_pops_step me dt n s vs hd op os s' vs' hd' : pop_ok me dt n s vs op -> files_after s op = s' -> views_after s vs hd op = vs' -> header_after s vs hd op = hd' ->
  pops_ok me dt n s' vs' hd' os -> pops_ok me dt n s vs hd (op :: os).
Proof. intros H <- <- <- H1. split; assumption. Qed.
(* Two Columns write, the copy of a copy reads, all are released, and the
   block is opened again. *)
Definition ex_pops : list pop :=
  [POn 0 (HWrite 1 ex_a ex_um); PPickle 0; POn 1 (HWrite 0 ex_a ex_um); POn 0 (HRead 1 ex_a2 ex_um); PPickle 1; POn 2 (HRead 0 ex_a2 ex_um);
   PDrop 0; POn 1 HFlush; POn 2 HFlush; PGrow 1 [3]; POn 2 (HRead 1 ex_a2 ex_um); PDrop 2; POpen; POn 3 (HWrite 5 ex_a ex_um); PDrop 1; POn 3 HReopen; POn 3 (HRead 5 ex_a2 ex_um)].
Example C80_example : new_block ex_e ex_f1 ex_base (lit ">i4") 2 ex_sizes /\ nul_free ex_base /\ nul_free (lit ">i4") /\
  itemsize LE (lit ">i4") * 2 <= e_chunk ex_e /\ history_legal LE (lit ">i4") 2 ex_sizes ex_pops.
Proof.
  split; [apply ex_new; [exact ex_lay1|ex_neg]|]. split; [ex_nul|]. split; [ex_nul|]. split; [ex_neg|].
  unfold history_legal, ex_pops. cbn [pstart p_views].
  repeat (eapply ex_pops_step; [ex_step|vm_compute; reflexivity|vm_compute; reflexivity|vm_compute; reflexivity|]). exact I.
Qed.

(* What the i-th Column says its size is. *)
Definition size_of (cs : list column) (i : nat) : option Z :=
  match nth_error cs i with Some (Some b) => Some (b_size b) | _ => None end.

(* A Column that was pickled with something to save has a copy that, when it is
   released, writes the header it remembers. Rows appended in the meantime,
   which a Column opened before that (2) has, are then not in the block any
   more (3). *)
Definition ex_lost1 : list pop :=
  [POn 0 (HWrite 1 ex_a ex_um); PPickle 0; PGrow 0 [3]; POn 0 (HWrite 5 ex_a ex_um); PDrop 0; POpen; PDrop 1; POpen].
(* The same if a Column writes that was opened before the block grew. *)
Definition ex_lost2 : list pop :=
  [POpen; PGrow 0 [3]; POn 0 (HWrite 5 ex_a ex_um); PDrop 0; POpen; POn 1 (HWrite 1 ex_a ex_um); PDrop 1; POpen].
Definition lost (os : list pop) : Prop := exists me e junk nbase f base d nmemb sizes f1 b1 xs f' cs,
  (forall i, e_me (e i) = me) /\ (forall i, itemsize me d * nmemb <= e_chunk (e i)) /\ nul_free base /\ nul_free d /\ new_block (e 0%nat) f base d nmemb sizes /\
  big_block_create (e 0%nat) f base (Some d) nmemb (zlen sizes) sizes = Ret (f1, Some b1) /\
  prun e junk nbase base (f1, [Some b1]) os = Ret (xs, (f', cs)) /\ Forall (fun x => fst x = 0) xs /\
  size_of cs 2 = Some 8 /\ size_of cs 3 = Some 5.
Lemma lost_run os : match big_block_create ex_e ex_f1 ex_base (Some (lit ">i4")) 2 (zlen ex_sizes) ex_sizes with
    | Ret (f1, Some b1) => match prun (fun _ => ex_e) (fun _ _ _ => x00) (fun _ => 4096) ex_base (f1, [Some b1]) os with
        | Ret (xs, (f', cs)) => (map fst xs, size_of cs 2, size_of cs 3) = (map (fun _ => 0) os, Some 8, Some 5)
        | _ => False end
    | _ => False end -> lost os.
Proof.
  intros H.
  destruct (big_block_create ex_e ex_f1 ex_base (Some (lit ">i4")) 2 (zlen ex_sizes) ex_sizes) as [[f1 [b1|]]| |] eqn:E1; try contradiction.
  destruct (prun (fun _ => ex_e) (fun _ _ _ => x00) (fun _ => 4096) ex_base (f1, [Some b1]) os) as [[xs [f' cs]]| |] eqn:E2; try contradiction.
  injection H as H1 H2 H3. exists LE, (fun _ => ex_e), (fun _ _ _ => x00), (fun _ => 4096), ex_f1, ex_base, (lit ">i4"), 2, ex_sizes, f1, b1, xs, f', cs.
  split; [reflexivity|]. split; [intros _; ex_neg|]. split; [ex_nul|]. split; [ex_nul|].
  split; [apply ex_new; [exact ex_lay1|ex_neg]|]. split; [exact E1|]. split; [exact E2|]. split; [|auto].
  apply Forall_forall. intros x Hx. apply (in_map fst) in Hx. rewrite H1 in Hx. apply in_map_iff in Hx. destruct Hx as (y & Hy & _). congruence.
Qed.
Theorem C80_pickled_grow_refuted : lost ex_lost1.
Proof. apply lost_run. vm_compute. reflexivity. Qed.
Theorem C80_stale_write_refuted : lost ex_lost2.
Proof. apply lost_run. vm_compute. reflexivity. Qed.

(* Two Columns that each write other files: every row is in the table, but the
   header of the one released last does not have the checksums of the files
   the other wrote. *)
Definition ex_sums : list pop := [PPickle 0; POn 0 (HWrite 0 ex_a ex_um); POn 1 (HWrite 2 ex_a ex_um); PDrop 0; PDrop 1; POpen].
Theorem C80_checksum_refuted : exists me e junk nbase f base d nmemb sizes os f1 b1 xs f' cs b,
  new_block (e 0%nat) f base d nmemb sizes /\ history_legal me d nmemb sizes os /\
  big_block_create (e 0%nat) f base (Some d) nmemb (zlen sizes) sizes = Ret (f1, Some b1) /\
  prun e junk nbase base (f1, [Some b1]) os = Ret (xs, (f', cs)) /\ nth_error cs 2 = Some (Some b) /\
  b_size b = zsum sizes /\ ~ sums_ok f' base sizes (b_fchecksum b).
Proof.
  assert (H : match big_block_create ex_e ex_f1 ex_base (Some (lit ">i4")) 2 (zlen ex_sizes) ex_sizes with
    | Ret (f1, Some b1) => match prun (fun _ => ex_e) (fun _ _ _ => x00) (fun _ => 4096) ex_base (f1, [Some b1]) ex_sums with
        | Ret (xs, (f', cs)) => match nth_error cs 2 with
            | Some (Some b) => match data_file f' ex_base 0 with Some c => (b_size b =? zsum ex_sizes) && negb (nth 0 (b_fchecksum b) 0 =? byte_sum c mod 2 ^ 32) = true | None => False end
            | _ => False end
        | _ => False end
    | _ => False end) by (vm_compute; reflexivity).
  assert (Hos : history_legal LE (lit ">i4") 2 ex_sizes ex_sums).
  { unfold history_legal, ex_sums. cbn [pops_ok]. repeat (split; [ex_step|]). exact I. }
  assert (Hnew : new_block ex_e ex_f1 ex_base (lit ">i4") 2 ex_sizes) by (apply ex_new; [exact ex_lay1|ex_neg]).
  destruct (C80_columns_partial LE (fun _ => ex_e) (fun _ _ _ => x00) (fun _ => 4096) ex_f1 ex_base (lit ">i4") 2 ex_sizes ex_sums) as (f1 & b1 & xs & f' & cs & st & E1 & E2 & S & Hl & Hv);
    [reflexivity|intros _; ex_neg|ex_nul|ex_nul|exact Hnew|exact Hos|].
  rewrite E1, E2 in H. destruct (nth_error cs 2) as [[b|]|] eqn:Eb; try contradiction.
  destruct (data_file f' ex_base 0) as [c|] eqn:Ec; [|contradiction]. apply andb_true_iff in H. destruct H as [H0 H].
  exists LE, (fun _ => ex_e), (fun _ _ _ => x00), (fun _ => 4096), ex_f1, ex_base, (lit ">i4"), 2, ex_sizes, ex_sums, f1, b1, xs, f', cs, b.
  split; [exact Hnew|]. split; [exact Hos|]. split; [exact E1|]. split; [exact E2|]. split; [exact Eb|]. split.
  - apply Z.eqb_eq. exact H0.
  - intros X. specialize (X 0%nat c ltac:(cbn; lia) Ec). rewrite X, Z.eqb_refl in H. discriminate H.
Qed.

Print Assumptions C80_columns_partial.
Print Assumptions C80_pickled_grow_refuted.
Print Assumptions C80_stale_write_refuted.
Print Assumptions C80_checksum_refuted.
