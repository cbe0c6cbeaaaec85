(* Property C82: filling a block in several sessions through FileMPI. *)
From Coq.Strings Require Import Byte String.
From Coq Require Import List ZArith Lia Bool ZifyBool ZifyNat.
From Verif Require Import Base BaseFacts Dtype Cast Array FS Fmt Attr Block File Split Pack Spec AttrSpec OpenSpec HistSpec FileSpec Py PySpec Par MpiSpec Mpi CHistSpec
  ExecFacts MpiPy MpiSess MpiSessSpec MpiSessFacts Ex PropsHeader PropsHist PropsHandle PropsPy.
Import ListNotations.
Open Scope Z_scope.

(* Full statement: a block that has been made and closed may be opened through
   FileMPI again and again; in each session every rank writes its rows behind
   those of the ranks before it. Afterwards the block holds what the sessions
   have written over what it held, and, if no row was written twice, its
   checksums are valid. The checksums are not, see below. For any history of
   one process before, any number of ranks and sessions, under every schedule,
   with no deadlock and nothing undefined: every call returns; no other file
   changes; any process that opens the block afterwards finds it with its size
   and goes on from the rows of the last session, whatever history it runs. The
   recorded checksums are exactly those of sum_after_all. They are valid for
   one rank, and for one session of any number of ranks if none were recorded
   before. *)
Theorem C82_sessions_partial : forall N me e junk nbase alloc bf nm d items sizes e0 f hs ys f1 b1 ss,
  let base := path_join bf nm in let dt := dtype_normalize me d in let w := itemsize me dt * items in
  (0 < N)%nat -> (forall i, (i < N)%nat -> e_me (e i) = me /\ w <= e_chunk (e i)) -> nul_free base ->
  new_block e0 f base d items sizes -> e_me e0 = me ->
  history_ok me dt items sizes hs -> create_and_run e0 f base d items sizes hs = Ret (Some (ys, (f1, b1))) -> b_dirty b1 = false -> no_attributes f1 base ->
  exists t, hspecs me dt items (new_table sizes) hs ys t /\
    (Forall (session_ok N w (t_size t)) ss ->
     ends N (fun res s => (forall i, (i < N)%nat -> res i = PyRet tt) /\
         (forall q, ~ own_file base q -> fs_get (g_fs s) q = fs_get f1 q) /\
         forall e1, e_me e1 = me -> w <= e_chunk e1 -> exists t2 b, same_rows (after_sessions N t ss) t2 /\
           big_block_open e1 (g_fs s) base = Ret (Some b) /\ b_size b = t_size t /\
           (forall j, (j < length (t_sizes t))%nat -> nth j (b_fchecksum b) 0 = sum_after_all N (t_sizes t) j (nth j (b_fchecksum b1) 0) ss) /\
           (fresh_sessions N t ss -> N = 1%nat \/ (length ss <= 1)%nat /\ (forall j, nth j (b_fchecksum b1) 0 = 0) ->
              sums_ok f1 base (t_sizes t) (b_fchecksum b1) -> sums_ok (g_fs s) base (t_sizes t) (b_fchecksum b)) /\
           forall hs, history_ok me dt items (t_sizes t) hs -> exists ys f' b' t', hrun e1 (g_fs s, b) hs = Ret (ys, (f', b')) /\ hspecs me dt items t2 hs ys t')
       (launch (fun i => whole (pm_sessions (junk i) (e i) (alloc i) (world N) i (nbase i) bf nm d items (map (fun s => part_of s i) ss))) f1)).
Proof. exact sessions_run. Qed.
Print Assumptions C82_sessions_partial.

(* Two sessions of two ranks, each rank writing one new row in each, into a block
   of eight rows of two 4-byte integers that has just been made. *)
Definition ex_s1 : session := mkSession 0 (fun i => match i with O => [lit "abcdefgh"] | _ => [lit "ijklmnop"] end) (fun _ => 3).
Definition ex_s2 : session := mkSession 4 (fun i => match i with O => [lit "qrstuvwx"] | _ => [lit "ABCDEFGH"] end) (fun _ => 1).
Definition ex_made := match create_and_run ex_e ex_f1 ex_base (lit ">i4") 2 [8] [] with Ret (Some (_, (f, b))) => (f, b) | _ => ([], ex_b) end.
Lemma ex_created : create_and_run ex_e ex_f1 ex_base (lit ">i4") 2 [8] [] = Ret (Some ([], ex_made)).
Proof. vm_compute. reflexivity. Qed.
Lemma ex_sess_ok : Forall (session_ok 2 8 8) [ex_s1; ex_s2].
Proof. repeat constructor; try (vm_compute; congruence). Qed.
Lemma ex_fresh : fresh_sessions 2 (new_table [8]) [ex_s1; ex_s2].
Proof.
  split; [reflexivity|]. split; [|exact I]. intros q Hq. cbn [with_rows t_row new_table]. change (zlen (session_rows 2 ex_s1)) with 2. change (s_first ex_s1) with 0. change (s_first ex_s2) with 4 in Hq.
  replace ((0 <=? q) && (q <? 0 + 2)) with false by lia. reflexivity.
Qed.
Example C82_example : (forall i, (i < 2)%nat -> e_me ex_e = LE /\ 8 <= e_chunk ex_e) /\ nul_free (path_join (lit "d") (lit "blk")) /\ path_join (lit "d") (lit "blk") = ex_base /\
  new_block ex_e ex_f1 ex_base (lit ">i4") 2 [8] /\ history_ok LE (lit ">i4") 2 [8] [] /\ itemsize LE (dtype_normalize LE (lit ">i4")) * 2 = 8 /\
  create_and_run ex_e ex_f1 ex_base (lit ">i4") 2 [8] [] = Ret (Some ([], ex_made)) /\ b_dirty (snd ex_made) = false /\ no_attributes (fst ex_made) ex_base /\
  Forall (session_ok 2 8 8) [ex_s1; ex_s2] /\ fresh_sessions 2 (new_table [8]) [ex_s1; ex_s2] /\
  (forall j, nth j (b_fchecksum (snd ex_made)) 0 = 0) /\ sums_ok (fst ex_made) ex_base [8] (b_fchecksum (snd ex_made)).
Proof.
  split; [intros i _; split; [reflexivity|discriminate]|]. split; [vm_compute; intuition discriminate|]. split; [reflexivity|].
  split; [apply ex_new; [exact ex_lay8|ex_neg]|]. split; [exact I|]. split; [reflexivity|]. split; [exact ex_created|]. split; [vm_compute; reflexivity|].
  split; [split; [vm_compute; reflexivity|vm_compute; auto]|]. split; [exact ex_sess_ok|]. split; [exact ex_fresh|]. split.
  - assert (E : b_fchecksum (snd ex_made) = [0; 0]) by (vm_compute; reflexivity). rewrite E. intros [|[|[|j]]]; reflexivity.
  - intros i c Hi Hc. destruct i as [|i]; [|cbn in Hi; lia]. assert (E : data_file (fst ex_made) ex_base 0 = Some []) by (vm_compute; reflexivity). rewrite E in Hc. injection Hc as <-. vm_compute. reflexivity.
Qed.

(* No row is written twice, yet the recorded checksum is wrong. *)
Local Notation ex_end := (exec 2 3000 (launch (fun i => whole (pm_sessions (fun _ _ => x00) ex_e ex_alloc (world 2) i 0 (lit "d") (lit "blk") (lit ">i4") 2 (map (fun s => part_of s i) [ex_s1; ex_s2]))) (fst ex_made))).
Lemma ex_bad : exists b x, big_block_open ex_e (g_fs ex_end) ex_base = Ret (Some b) /\ data_file (g_fs ex_end) ex_base 0 = Some x /\
  nth 0 (b_fchecksum b) 0 =? byte_sum x mod 2 ^ 32 = false.
Proof. eexists _, _. split; [vm_compute; reflexivity|]. split; [vm_compute; reflexivity|vm_compute; reflexivity]. Qed.
Theorem C82_checksums_refuted : exists N me e junk nbase alloc bf nm d items sizes e0 f f1 b1 ss,
  let base := path_join bf nm in let dt := dtype_normalize me d in let w := itemsize me dt * items in
  (0 < N)%nat /\ (forall i, (i < N)%nat -> e_me (e i) = me /\ w <= e_chunk (e i)) /\ nul_free base /\
  new_block e0 f base d items sizes /\ e_me e0 = me /\ create_and_run e0 f base d items sizes [] = Ret (Some ([], (f1, b1))) /\
  b_dirty b1 = false /\ no_attributes f1 base /\ sums_ok f1 base sizes (b_fchecksum b1) /\
  Forall (session_ok N w (zsum sizes)) ss /\ fresh_sessions N (new_table sizes) ss /\
  ~ ends N (fun res s => forall b, big_block_open e0 (g_fs s) base = Ret (Some b) -> sums_ok (g_fs s) base sizes (b_fchecksum b))
      (launch (fun i => whole (pm_sessions (junk i) (e i) (alloc i) (world N) i (nbase i) bf nm d items (map (fun s => part_of s i) ss))) f1).
Proof.
  destruct C82_example as (X1 & X2 & X3 & X4 & X5 & X6 & X7 & X8 & X9 & X10 & X11 & X12 & X13).
  exists 2%nat, LE, (fun _ => ex_e), (fun _ _ _ => x00), (fun _ => 0), (fun _ => ex_alloc), (lit "d"), (lit "blk"), (lit ">i4"), 2, [8], ex_e, ex_f1, (fst ex_made), (snd ex_made), [ex_s1; ex_s2].
  cbv zeta. rewrite X6, X3. rewrite X3 in X2. split; [lia|]. split; [exact X1|]. split; [exact X2|]. split; [exact X4|]. split; [reflexivity|].
  split; [rewrite X7; destruct ex_made; reflexivity|]. split; [exact X8|]. split; [exact X9|]. split; [exact X13|]. split; [exact X10|]. split; [exact X11|].
  intros H. apply (ends_exec_done 2 _ 3000) in H; [|vm_compute; reflexivity]. destruct H as (res & _ & H).
  destruct ex_bad as (b & x & E1 & E2 & E3). specialize (H b E1 0%nat x (le_n 1) E2). rewrite H, Z.eqb_refl in E3. discriminate E3.
Qed.
Print Assumptions C82_checksums_refuted.
