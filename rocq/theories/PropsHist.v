(* Properties C08 - C10, C13, C14: histories of operations on a block. *)
From Coq.Strings Require Import Byte String.
From Coq Require Import List ZArith Lia Bool.
From Verif Require Import Base BaseFacts Dtype Cast Array FS Fmt Attr Block Spec AttrSpec OpenSpec HistSpec
  FSFacts WriteFacts IOFacts OpenFacts HistFacts Ex PropsHeader.
Import ListNotations.
Open Scope Z_scope.

(* ------------------------------------------------------------------ examples *)
Lemma ex_dir1 : block_dir ex_f1 ex_base.
Proof. apply ex_dir_gen; [vm_compute; auto|reflexivity|]. intros p H. repeat (destruct H as [H|H]; [injection H as <-; simpl; lia || discriminate|]); destruct H. Qed.
(* A block is created where an earlier one has left data. *)
Lemma ex_new sizes : layout_ok sizes -> zlen sizes <= 2 ^ 24 -> new_block ex_e ex_f1 ex_base (lit ">i4") 2 sizes.
Proof.
  intros H1 H2. constructor; auto; try reflexivity; try ex_neg.
  - exact ex_name.
  - exact ex_dir1.
  - split; reflexivity.
  - exact ex_type.
  - split; reflexivity.
Qed.
Lemma ex_lay1 : layout_ok ex_sizes.
Proof. split; [|split]; [repeat constructor; ex_neg|reflexivity|reflexivity]. Qed.
Lemma ex_lay2 : layout_ok [5].
Proof. split; [|split]; [repeat constructor; ex_neg|reflexivity|reflexivity]. Qed.

Lemma ex_source : source LE (lit ">i4") 2 ex_a ex_um ex_vs ex_outs.
Proof. split; [reflexivity|]. split; [exact ex_holds|exact ex_conv]. Qed.
Lemma ex_hwrite sizes o : 0 <= o < 2 ^ 63 -> hop_ok LE (lit ">i4") 2 sizes (HWrite o ex_a ex_um).
Proof.
  intros Ho. split; [exact Ho|]. split; [reflexivity|]. split; [exact ex_array|]. split; [exact ex_dt|].
  split; [left; reflexivity|]. split; [exists ex_vs, ex_outs; exact ex_source|]. intros H; discriminate H.
Qed.
Lemma ex_hread sizes o : 0 <= o < 2 ^ 63 -> hop_ok LE (lit ">i4") 2 sizes (HRead o ex_a2 ex_um).
Proof.
  intros Ho. split; [exact Ho|]. split; [reflexivity|]. split; [exact ex_array2|]. split; [exact ex_dt|].
  split; [left; reflexivity|]. split; [intros v _; eexists; reflexivity|]. split; [exact ex_mapped2|exact ex_disjoint2].
Qed.

(* Write rows 1..3, overwrite 0..2, read, reopen, grow by 3, flush, write 5..7. *)
Definition ex_history : list hop :=
  [HWrite 1 ex_a ex_um; HWrite 0 ex_a ex_um; HRead 1 ex_a2 ex_um; HReopen; HGrow [3]; HFlush; HWrite 5 ex_a ex_um].
Ltac hist_tac := repeat (split; [first [apply ex_hwrite; lia | apply ex_hread; lia | exact I
  | (split; [split; [|split]; [repeat constructor; ex_neg|reflexivity|reflexivity]|ex_neg])]|]); exact I.
Lemma ex_history_ok sizes : layout_ok (sizes ++ [3]) -> zlen (sizes ++ [3]) <= 2 ^ 24 -> history_ok LE (lit ">i4") 2 sizes ex_history.
Proof.
  intros H1 H2. unfold ex_history. cbn [history_ok sizes_after].
  split; [apply ex_hwrite; lia|]. split; [apply ex_hwrite; lia|]. split; [apply ex_hread; lia|]. split; [exact I|].
  split; [split; assumption|]. split; [exact I|]. split; [apply ex_hwrite; lia|exact I].
Qed.
Lemma ex_history1 : history_ok LE (lit ">i4") 2 ex_sizes ex_history.
Proof. apply ex_history_ok; [split; [|split]; [repeat constructor; ex_neg|reflexivity|reflexivity]|ex_neg]. Qed.
Lemma ex_history2 : history_ok LE (lit ">i4") 2 [5] ex_history.
Proof. apply ex_history_ok; [split; [|split]; [repeat constructor; ex_neg|reflexivity|reflexivity]|ex_neg]. Qed.

(* ------------------------------------------------------------------ C08 *)
(* After creating a block, whatever was in the directory before, and any
   history of operations: reading a range that contains a row which was never
   written, and which no written row follows in its physical file, fails. *)
Theorem C08_not_fabricated : forall e f base d nmemb sizes os o a um, let dt := dtype_normalize (e_me e) d in
  new_block e f base d nmemb sizes -> history_ok (e_me e) dt nmemb sizes os ->
  exists xs f' b' t, create_and_run e f base d nmemb sizes os = Ret (Some (xs, (f', b'))) /\
    hspecs (e_me e) dt nmemb (new_table sizes) os xs t /\
    (hop_ok (e_me e) dt nmemb (t_sizes t) (HRead o a um) ->
     (exists r, o <= r < o + nrows nmemb a /\ absent t r) ->
     exists um', hstep e (f', b') (HRead o a um) = Ret ((-1, Some um'), (f', b'))).
Proof. exact history_absent. Qed.

(* The old block had data in the third file; the new one has none. *)
Example C08_example : new_block ex_e ex_f1 ex_base (lit ">i4") 2 ex_sizes /\
  data_file ex_f1 ex_base 2 = Some (lit "abcdefgh") /\
  hop_ok LE (lit ">i4") 2 ex_sizes (HRead 2 ex_a2 ex_um) /\ absent (new_table ex_sizes) 2 /\
  2 <= 2 < 2 + nrows 2 ex_a2.
Proof.
  split; [apply ex_new; [exact ex_lay1|ex_neg]|]. split; [reflexivity|]. split; [apply ex_hread; lia|].
  split; [split; [reflexivity|intros; reflexivity]|]. split; [ex_neg|reflexivity].
Qed.

(* ------------------------------------------------------------------ C09 *)
(* Every history runs without undefined behaviour, and its results are those
   of a table of rows. *)
Theorem C09_history : forall e f base d nmemb sizes os, let dt := dtype_normalize (e_me e) d in
  new_block e f base d nmemb sizes -> history_ok (e_me e) dt nmemb sizes os ->
  exists xs f' b' t, create_and_run e f base d nmemb sizes os = Ret (Some (xs, (f', b'))) /\
    hspecs (e_me e) dt nmemb (new_table sizes) os xs t /\
    b_size b' = t_size t /\ b_dtype b' = dt /\ b_nmemb b' = nmemb /\ has_layout b' (t_sizes t).
Proof. exact history_refines. Qed.

Example C09_example : new_block ex_e ex_f1 ex_base (lit ">i4") 2 ex_sizes /\
  history_ok LE (lit ">i4") 2 ex_sizes ex_history.
Proof. split; [apply ex_new; [exact ex_lay1|ex_neg]|exact ex_history1]. Qed.

(* ------------------------------------------------------------------ C10 *)
(* The same calls on two blocks cut into different physical files. *)
Theorem C10_partition_invisible : forall e1 e2 f1 f2 base1 base2 d nmemb sizes1 sizes2 os1 os2 o a um,
  let dt := dtype_normalize (e_me e1) d in
  e_me e1 = e_me e2 ->
  new_block e1 f1 base1 d nmemb sizes1 -> new_block e2 f2 base2 d nmemb sizes2 ->
  history_ok (e_me e1) dt nmemb sizes1 os1 -> history_ok (e_me e1) dt nmemb sizes2 os2 ->
  Forall2 same_calls os1 os2 -> zsum sizes1 = zsum sizes2 ->
  exists xs1 g1 b1 t1 xs2 g2 b2,
    create_and_run e1 f1 base1 d nmemb sizes1 os1 = Ret (Some (xs1, (g1, b1))) /\
    create_and_run e2 f2 base2 d nmemb sizes2 os2 = Ret (Some (xs2, (g2, b2))) /\
    hspecs (e_me e1) dt nmemb (new_table sizes1) os1 xs1 t1 /\
    b_size b1 = b_size b2 /\
    (hop_ok (e_me e1) dt nmemb (t_sizes t1) (HRead o a um) ->
     o + nrows nmemb a <= t_size t1 -> (forall r, o <= r < o + nrows nmemb a -> t_row t1 r <> None) ->
     exists um1 um2,
       hstep e1 (g1, b1) (HRead o a um) = Ret ((0, Some um1), (g1, b1)) /\
       hstep e2 (g2, b2) (HRead o a um) = Ret ((0, Some um2), (g2, b2)) /\
       forall x, um1 x = um2 x).
Proof. exact history_partition. Qed.

Example C10_example : new_block ex_e ex_f1 ex_base (lit ">i4") 2 ex_sizes /\ new_block ex_e ex_f1 ex_base (lit ">i4") 2 [5] /\
  history_ok LE (lit ">i4") 2 ex_sizes ex_history /\ history_ok LE (lit ">i4") 2 [5] ex_history /\
  Forall2 same_calls ex_history ex_history /\ zsum ex_sizes = zsum [5].
Proof.
  split; [apply ex_new; [exact ex_lay1|ex_neg]|]. split; [apply ex_new; [exact ex_lay2|ex_neg]|].
  split; [exact ex_history1|]. split; [exact ex_history2|]. split; [repeat constructor|reflexivity].
Qed.

(* ------------------------------------------------------------------ C13 *)
(* If no row is written twice: the recorded checksum of every file is the sum
   of its bytes, and what bigfile-ls prints is the System V checksum of all
   data. *)
Theorem C13_checksums : forall e f base d nmemb sizes os, let dt := dtype_normalize (e_me e) d in
  new_block e f base d nmemb sizes -> history_ok (e_me e) dt nmemb sizes os ->
  written_once (e_me e) dt nmemb (new_table sizes) os ->
  exists xs f' b' t, create_and_run e f base d nmemb sizes os = Ret (Some (xs, (f', b'))) /\
    hspecs (e_me e) dt nmemb (new_table sizes) os xs t /\
    files_exist f' base (t_sizes t) /\ has_layout b' (t_sizes t) /\
    sums_ok f' base (t_sizes t) (b_fchecksum b') /\
    ls_checksum b' = sysv_checksum (all_data f' base (t_sizes t)).
Proof. exact history_checksum. Qed.

(* rows 1..3, then a reopen, growing, rows 5..7 *)
Definition ex_once : list hop := [HWrite 1 ex_a ex_um; HReopen; HGrow [3]; HWrite 5 ex_a ex_um].
Example C13_example : new_block ex_e ex_f1 ex_base (lit ">i4") 2 ex_sizes /\
  history_ok LE (lit ">i4") 2 ex_sizes ex_once /\ written_once LE (lit ">i4") 2 (new_table ex_sizes) ex_once.
Proof.
  split; [apply ex_new; [exact ex_lay1|ex_neg]|]. split.
  { unfold ex_once. cbn [history_ok sizes_after]. hist_tac. }
  split; [intros; reflexivity|]. intros x t' H.
  inversion H as [o a um um' vs outs L1|o a um L1| | | |]; subst; [|exfalso; vm_compute in L1; discriminate L1].
  split; [exact I|]. intros x2 t2 H2. inversion H2; subst. split; [exact I|]. intros x3 t3 H3. inversion H3; subst.
  split; [|intros; exact I]. intros _ q Hq. cbn [t_row with_rows new_table].
  change (nrows 2 ex_a) with 3 in *. unfold zlen, rows_of. rewrite map_length, WriteFacts.group_length.
  destruct (q <? 1 + Z.of_nat (Z.to_nat 3)) eqn:E; [apply Z.ltb_lt in E; lia|]. rewrite andb_false_r. reflexivity.
Qed.

(* ------------------------------------------------------------------ C14 *)
(* In general the recorded checksum is the sum of all bytes ever written to
   the file. *)
Theorem C14_checksum_partial : forall e f base d nmemb sizes os, let dt := dtype_normalize (e_me e) d in
  new_block e f base d nmemb sizes -> history_ok (e_me e) dt nmemb sizes os ->
  exists xs f' b' t, create_and_run e f base d nmemb sizes os = Ret (Some (xs, (f', b'))) /\
    hspecs (e_me e) dt nmemb (new_table sizes) os xs t /\
    forall i, (i < length (t_sizes t))%nat -> nth i (b_fchecksum b') 0 = t_sum t i mod 2 ^ 32.
Proof. exact history_sums. Qed.

(* So it is wrong after overwriting. *)
Definition ex_twice : list hop := [HWrite 1 ex_a ex_um; HWrite 1 ex_a ex_um].
Theorem C14_checksum_refuted : exists e f base d nmemb sizes os, let dt := dtype_normalize (e_me e) d in
  new_block e f base d nmemb sizes /\ history_ok (e_me e) dt nmemb sizes os /\
  exists xs f' b', create_and_run e f base d nmemb sizes os = Ret (Some (xs, (f', b'))) /\
    has_layout b' sizes /\ ~ sums_ok f' base sizes (b_fchecksum b').
Proof.
  exists ex_e, ex_f1, ex_base, (lit ">i4"), 2, ex_sizes, ex_twice. cbv zeta.
  assert (Hn : new_block ex_e ex_f1 ex_base (lit ">i4") 2 ex_sizes) by (apply ex_new; [exact ex_lay1|ex_neg]).
  assert (Ho : history_ok LE (lit ">i4") 2 ex_sizes ex_twice).
  { unfold ex_twice. cbn [history_ok sizes_after]. hist_tac. }
  split; [exact Hn|]. split; [exact Ho|].
  destruct (history_refines ex_e ex_f1 ex_base (lit ">i4") 2 ex_sizes ex_twice Hn Ho) as (xs & f' & b' & t & E & S & _ & _ & _ & L).
  exists xs, f', b'. split; [exact E|].
  assert (Et : t_sizes t = ex_sizes).
  { inversion S as [|? ? ? ? ? ? ? S1 S2]; subst. inversion S2 as [|? ? ? ? ? ? ? S3 S4]; subst. inversion S4; subst.
    inversion S3; subst; inversion S1; subst; reflexivity. }
  rewrite Et in L. split; [exact L|]. intros HS.
  assert (K : match create_and_run ex_e ex_f1 ex_base (lit ">i4") 2 ex_sizes ex_twice with
              | Ret (Some (_, (g, b))) => match data_file g ex_base 0 with
                   | Some c => nth 0 (b_fchecksum b) 0 <> byte_sum c mod 2 ^ 32
                   | None => False
                   end
              | _ => False
              end).
  { vm_compute. ex_neg. }
  rewrite E in K. destruct (data_file f' ex_base 0) as [c|] eqn:Ec; [|exact K]. apply K. apply HS; [cbn; lia|exact Ec].
Qed.

Definition all_Hist := (@C08_not_fabricated, @C09_history, @C10_partition_invisible, @C13_checksums,
  @C14_checksum_partial, @C14_checksum_refuted).
Print Assumptions all_Hist.
