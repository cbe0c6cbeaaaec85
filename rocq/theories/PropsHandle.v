(* Properties C44, C45, C63 - C65: collective handles and histories of
   collective operations. [ends N P s] says that from s, under every schedule,
   the N ranks finish without undefined behaviour, deadlock or mismatched
   collective operations, in a state that satisfies P. *)
From Coq.Strings Require Import Byte String.
From Coq Require Import List ZArith Lia Bool ZifyBool ZifyNat.
From Verif Require Import Base BaseFacts Dtype Cast Array FS Fmt Attr Block Pack Spec AttrSpec OpenSpec PackSpec HistSpec Par Mpi MpiSpec CHistSpec
  ConvFacts WriteFacts OpenFacts AgreeFacts ExecFacts HandleFacts CHistFacts Ex PropsHeader PropsHist PropsColl.
Import ListNotations.
Open Scope Z_scope.

(* ------------------------------------------------------------------ C44 *)
(* Of n new files rank i creates those from the first up to the second number
   of its share: every file is in the share of exactly one rank. *)
Theorem C44_share : forall N, (0 < N)%nat -> forall n j, 0 <= j < n ->
  exists i, (i < N)%nat /\ fst (share n (world N) i) <= j < snd (share n (world N) i) /\
    forall k, (k < N)%nat -> fst (share n (world N) k) <= j < snd (share n (world N) k) -> k = i.
Proof. exact (fun N HN => share_once N LE (fun _ _ _ => x00) (fun _ => 0) (fun _ => ex_e) HN (fun _ _ => eq_refl)). Qed.
(* The files after a collective creation are those of a creation by one
   process, and all ranks get its handle; or it fails on all ranks. *)
Theorem C44_create : forall N me junk nbase e, (0 < N)%nat -> (forall i, (i < N)%nat -> e_me (e i) = me) ->
  forall base dtype nmemb Nfile fsize f f1 ob, create_fits base dtype nmemb Nfile fsize ->
  big_block_create (e 0%nat) f base dtype nmemb Nfile fsize = Ret (f1, ob) ->
  ends N (fun res s => match ob with
      | Some b => fs_eq f1 (g_fs s) /\ forall i, (i < N)%nat -> exists b', res i = (0, b') /\ handed b i b'
      | None => forall i, (i < N)%nat -> fst (res i) = -1
      end)
    (launch (fun i => whole (mpi_create (junk i) (e i) (world N) i (nbase i) base dtype nmemb Nfile fsize)) f).
Proof. exact coll_create. Qed.
(* Growing: the same. *)
Theorem C44_grow : forall N me junk nbase e, (0 < N)%nat -> (forall i, (i < N)%nat -> e_me (e i) = me) ->
  forall b ngrow fsize f rc f1 b1, transferable me (b 0%nat) -> grow_fits (b 0%nat) ngrow fsize ->
  (forall i, (i < N)%nat -> b_Nfile (b i) = b_Nfile (b 0%nat)) ->
  big_block_grow f (b 0%nat) ngrow fsize = Ret (rc, f1, b1) ->
  ends N (fun res s => (rc = 0 -> fs_eq f1 (g_fs s)) /\ forall i, (i < N)%nat -> exists b', res i = (rc, b') /\ handed b1 i b')
    (launch (fun i => whole (mpi_grow (junk i) (e i) (world N) i (nbase i) (b i) ngrow fsize)) f).
Proof. exact coll_grow. Qed.

(* Five files on three ranks; a block of three files is created where there
   are files already, and grows by two files. *)
Definition ex_made : fs * option block := match big_block_create ex_e ex_f1 ex_base (Some (lit ">i4")) 2 3 [2; 0; 3] with Ret x => x | _ => ([], None) end.
Definition ex_made_b : block := match snd ex_made with Some b => b | None => ex_b end.
Example C44_example :
  map (share 5 (world 3)) [0; 1; 2]%nat = [(0, 1); (1, 3); (3, 5)] /\
  create_fits ex_base (Some (lit ">i4")) 2 3 [2; 0; 3] /\
  big_block_create ex_e ex_f1 ex_base (Some (lit ">i4")) 2 3 [2; 0; 3] = Ret (fst ex_made, Some ex_made_b) /\
  transferable LE ex_made_b /\ grow_fits ex_made_b 2 [7; 9] /\
  exists f1 b1, big_block_grow (fst ex_made) ex_made_b 2 [7; 9] = Ret (0, f1, b1) /\ b_Nfile b1 = 5.
Proof.
  split; [vm_compute; reflexivity|].
  assert (CF : create_fits ex_base (Some (lit ">i4")) 2 3 [2; 0; 3]).
  { split; [vm_compute; intuition discriminate|]. split; [lia|]. split; [lia|]. split; [repeat constructor; lia|vm_compute; intuition discriminate]. }
  split; [exact CF|]. split; [vm_compute; reflexivity|]. split; [|split].
  - apply (created_sendable LE ex_e ex_f1 ex_base (Some (lit ">i4")) 2 3 [2; 0; 3] (match create_internal ex_e ex_f1 ex_base (Some (lit ">i4")) 2 3 [2; 0; 3] with Ret (x, _) => x | _ => [] end) ex_made_b eq_refl CF).
    vm_compute. reflexivity.
  - split; [vm_compute; discriminate|]. split; [vm_compute; discriminate|]. split; [lia|]. split; [vm_compute; reflexivity|repeat constructor; lia].
  - eexists _, _. split; [vm_compute; reflexivity|reflexivity].
Qed.

(* ------------------------------------------------------------------ C65 *)
(* A collective open gives every rank the handle that rank 0 alone would get,
   and touches nothing. *)
Theorem C65_open : forall N me junk nbase e, (0 < N)%nat -> (forall i, (i < N)%nat -> e_me (e i) = me) ->
  forall base f ob, big_block_open (e 0%nat) f base = Ret ob -> (forall b, ob = Some b -> transferable me b) ->
  ends N (fun res s => g_fs s = f /\ match ob with
      | Some b => forall i, (i < N)%nat -> exists b', res i = (0, b') /\ handed b i b'
      | None => forall i, (i < N)%nat -> fst (res i) = -1
      end)
    (launch (fun i => whole (mpi_open (junk i) (e i) (world N) i (nbase i) base)) f).
Proof. exact coll_open. Qed.
(* A collective flush writes what rank 0 alone would write had it recorded
   everything the ranks have recorded, if anyone has anything to write; all
   ranks get the code, and rank 0's handle if that is 0. *)
Theorem C65_flush : forall N me junk nbase e, (0 < N)%nat -> (forall i, (i < N)%nat -> e_me (e i) = me) ->
  forall b f rc f1 b1, (forall i, (i < N)%nat -> b_Nfile (b i) = b_Nfile (b 0%nat) /\ b_Nfile (b 0%nat) <= zlen (b_fchecksum (b i))) ->
  0 <= b_Nfile (b 0%nat) ->
  big_block_flush (e 0%nat) f (merged N b) = Ret (rc, f1, b1) -> (rc = 0 -> transferable me b1) ->
  ends N (fun res s => g_fs s = f1 /\ forall i, (i < N)%nat -> fst (res i) = rc /\ (rc = 0 -> handed b1 i (snd (res i))))
    (launch (fun i => whole (mpi_flush (junk i) (e i) (world N) i (nbase i) (b i))) f).
Proof. exact coll_flush. Qed.

(* Three ranks have recorded 1, 2 and 3 for the first file. *)
Definition ex_rec (i : nat) : block := set_checksums (set_bdirty ex_made_b (i =? 1)%nat) [Z.of_nat i + 1; 0; 5; 0].
Example C65_example :
  (exists b, big_block_open ex_e (fst ex_made) ex_base = Ret (Some b) /\ b_Nfile b = 3) /\
  (forall i, (i < 3)%nat -> b_Nfile (ex_rec i) = b_Nfile (ex_rec 0) /\ b_Nfile (ex_rec 0) <= zlen (b_fchecksum (ex_rec i))) /\
  exists f1 b1, big_block_flush ex_e (fst ex_made) (merged 3 ex_rec) = Ret (0, f1, b1) /\ b_fchecksum b1 = [6; 0; 15; 0] /\ b_dirty (merged 3 ex_rec) = true.
Proof.
  split; [eexists; split; [vm_compute; reflexivity|reflexivity]|]. split; [intros i Hi; split; [reflexivity|vm_compute; discriminate]|].
  eexists _, _. split; [vm_compute; reflexivity|]. split; vm_compute; reflexivity.
Qed.

(* ------------------------------------------------------------------ C63 *)
(* N ranks create a block and run a history of collective writes, reads,
   growths, flushes and reopenings on it. Every call returns on every rank
   what the table of rows says (cspecs), and all handles describe the table. *)
Theorem C63_collective_history : forall N me thr junk nbase e base d nmemb sizes, let dt := dtype_normalize me d in
  (0 < N)%nat -> (forall i, (i < N)%nat -> e_me (e i) = me) -> nul_free base -> forall f os,
  (forall i, (i < N)%nat -> new_block (e i) f base d nmemb sizes) -> nul_free d -> chistory_ok N me dt nmemb thr sizes os ->
  ends N (fun res s => exists xs t, cspecs N me dt nmemb (new_table sizes) os xs t /\ handles N base dt nmemb t (fun i => snd (snd (res i))) /\
      forall i, (i < N)%nat -> fst (res i) = 0 /\ fst (snd (res i)) = map (fun x => x i) xs)
    (launch (fun i => whole (ccreate_run N thr junk nbase e i base d nmemb sizes os)) f).
Proof. exact coll_history. Qed.

(* Three ranks write rows 1 .. 4, read them, flush, grow by three rows, read
   past the end, reopen, write rows 4 .. 7. *)
Definition ex_uw : nat -> mem := fun _ => ex_um.
Definition ex_cops : list cop :=
  [CWrite 1 2 ex_arr ex_uw; CRead 1 2 ex_arr ex_uw; CFlush; CGrow [3]; CRead 5 2 ex_arr ex_uw; CReopen; CWrite 4 1 ex_arr ex_uw].
Lemma ex_cwrite sizes o conc : 0 <= o -> o + 4 <= zsum sizes -> cop_ok 3 LE (lit ">i4") 2 2 sizes (CWrite o conc ex_arr ex_uw).
Proof.
  intros H1 H2. split; [exact H1|]. split; [exact H2|]. split; [split; [lia|left; reflexivity]|]. split.
  - exists ex_elems, ex_conved. split; [|exact ex_source]. intros i Hi. pose proof (ex_source i Hi) as []. split; [exact sc_len|]. split; [exact sc_holds|]. apply (ex_converted i Hi).
  - intros i Hi. split; [|apply (ex_converted i Hi)]. do 3 (destruct i as [|i]; [ex_neg|]). lia.
Qed.
Lemma ex_cread sizes o conc : 0 <= o < 100 -> cop_ok 3 LE (lit ">i4") 2 2 sizes (CRead o conc ex_arr ex_uw).
Proof.
  intros H1. change (total 3 (rank_rows ex_arr)) with 4. cbn [cop_ok]. change (total 3 (rank_rows ex_arr)) with 4. split; [lia|]. split; [lia|]. split; [split; [lia|left; reflexivity]|].
  intros i Hi. split; [do 3 (destruct i as [|i]; [ex_neg|]); lia|]. split; [apply ex_target; exact Hi|]. split; [left; reflexivity|]. intros v _. eexists. reflexivity.
Qed.
Lemma ex_chistory : chistory_ok 3 LE (lit ">i4") 2 2 ex_sizes ex_cops.
Proof.
  unfold ex_cops. cbn [chistory_ok csizes_after].
  split; [apply ex_cwrite; ex_neg|]. split; [apply ex_cread; lia|]. split; [exact I|].
  split; [split; [split; [|split]; [repeat constructor; ex_neg|reflexivity|reflexivity]|ex_neg]|]. split; [apply ex_cread; lia|]. split; [exact I|]. split; [apply ex_cwrite; ex_neg|exact I].
Qed.
Definition ex_junk : nat -> nat -> nat -> nat -> byte := fun _ _ _ k => z2b (Z.of_nat k * 37).
Definition ex_nbase : nat -> nat -> Z := fun _ _ => 7.
Example C63_example :
  (forall i, (i < 3)%nat -> new_block ex_e ex_f1 ex_base (lit ">i4") 2 ex_sizes) /\ nul_free ex_base /\
  chistory_ok 3 LE (lit ">i4") 2 2 ex_sizes ex_cops /\
  let s := exec 3 4000 (launch (fun i => whole (ccreate_run 3 2 ex_junk ex_nbase (fun _ => ex_e) i ex_base (lit ">i4") 2 ex_sizes ex_cops)) ex_f1) in
  map (fun i => match g_ps s i with Done (rc, (xs, _)) => (rc, map fst xs) | _ => (-99, []) end) [0; 1; 2]%nat = repeat (0, [0; 0; 0; 0; -1; 0; 0]) 3.
Proof.
  split; [intros i _; apply ex_new; [exact ex_lay1|ex_neg]|]. split; [vm_compute; intuition discriminate|]. split; [exact ex_chistory|]. vm_compute. reflexivity.
Qed.

(* ------------------------------------------------------------------ C45 *)
(* What is missing: with several ranks the history before the flush may only
   consist of transfers, see C45_refuted. *)
Theorem C45_flush_partial : forall N me thr junk nbase e base d nmemb sizes, let dt := dtype_normalize me d in
  (0 < N)%nat -> (forall i, (i < N)%nat -> e_me (e i) = me) -> nul_free base -> forall f os,
  (forall i, (i < N)%nat -> new_block (e i) f base d nmemb sizes) -> nul_free d -> chistory_ok N me dt nmemb thr sizes os ->
  N = 1%nat \/ Forall transfer os -> cwritten_once N me dt nmemb (new_table sizes) os ->
  ends N (fun res s => exists xs t, cspecs N me dt nmemb (new_table sizes) (os ++ [CFlush]) xs t /\
      (forall i, (i < N)%nat -> fst (res i) = 0 /\ fst (snd (res i)) = map (fun x => x i) xs) /\
      forall e0, e_me e0 = me -> exists b, big_block_open e0 (g_fs s) base = Ret (Some b) /\ has_layout b (t_sizes t) /\ sums_ok (g_fs s) base (t_sizes t) (b_fchecksum b))
    (launch (fun i => whole (ccreate_run N thr junk nbase e i base d nmemb sizes (os ++ [CFlush]))) f).
Proof. exact coll_checksums. Qed.

Lemma ex_written t o x t' : cspec 3 LE (lit ">i4") 2 t (CWrite o 2 ex_arr ex_uw) x t' -> forall q, q < o \/ o + 4 <= q -> t_row t' q = t_row t q.
Proof.
  intros H q Hq. inversion H as [o0 c a um x0 um' vs outs HS HX| | | |]; subst. cbn [t_row with_rows].
  assert (E : zlen (flat_map (fun i => rows_of 2 (rank_rows ex_arr i) (outs i)) (seq 0 3)) = 4).
  { unfold zlen. cbn [seq flat_map]. rewrite !app_length, !rows_of_length. reflexivity. }
  rewrite E. destruct ((o <=? q) && (q <? o + 4)) eqn:Eq; [lia|reflexivity].
Qed.
(* Four rows are written, then the next four. *)
Definition ex_cops1 : list cop := [CWrite 0 2 ex_arr ex_uw; CRead 0 2 ex_arr ex_uw; CWrite 4 2 ex_arr ex_uw].
Lemma ex_lay8 : layout_ok [8].
Proof. split; [|split]; [repeat constructor; ex_neg|reflexivity|reflexivity]. Qed.
Example C45_example :
  (forall i, (i < 3)%nat -> new_block ex_e ex_f1 ex_base (lit ">i4") 2 [8]) /\ nul_free ex_base /\ nul_free (lit ">i4") /\
  chistory_ok 3 LE (lit ">i4") 2 2 [8] ex_cops1 /\ Forall transfer ex_cops1 /\ cwritten_once 3 LE (lit ">i4") 2 (new_table [8]) ex_cops1.
Proof.
  split; [intros i _; apply ex_new; [exact ex_lay8|ex_neg]|]. split; [vm_compute; intuition discriminate|]. split; [vm_compute; intuition discriminate|].
  split; [|split; [repeat constructor|]].
  - unfold ex_cops1. cbn [chistory_ok csizes_after]. split; [apply ex_cwrite; ex_neg|]. split; [apply ex_cread; lia|]. split; [apply ex_cwrite; ex_neg|exact I].
  - cbn [cwritten_once ex_cops1]. split; [reflexivity|]. intros x t1 H1. split; [exact I|]. intros x2 t2 H2. inversion H2; subst.
    split; [|exact (fun _ _ _ => I)]. intros q Hq. rewrite (ex_written _ _ _ _ H1) by (right; lia). reflexivity.
Qed.

(* A flush between the two writes: the second flush adds up the checksums
   that the first has given to all ranks. *)
Definition ex_cops2 : list cop := [CWrite 0 2 ex_arr ex_uw; CFlush; CWrite 4 2 ex_arr ex_uw].
Local Notation ex_end2 := (exec 3 2000 (launch (fun i => whole (ccreate_run 3 2 ex_junk ex_nbase (fun _ => ex_e) i ex_base (lit ">i4") 2 [8] (ex_cops2 ++ [CFlush]))) ex_f1)).
Lemma ex_wrong : exists b x, big_block_open ex_e (g_fs ex_end2) ex_base = Ret (Some b) /\ data_file (g_fs ex_end2) ex_base 0 = Some x /\
  nth 0 (b_fchecksum b) 0 =? byte_sum x mod 2 ^ 32 = false.
Proof. eexists _, _. split; [vm_compute; reflexivity|]. split; [vm_compute; reflexivity|vm_compute; reflexivity]. Qed.
Theorem C45_refuted : exists N me thr junk nbase e base d nmemb sizes f os, let dt := dtype_normalize me d in
  (0 < N)%nat /\ (forall i, (i < N)%nat -> e_me (e i) = me) /\ nul_free base /\
  (forall i, (i < N)%nat -> new_block (e i) f base d nmemb sizes) /\ nul_free d /\ chistory_ok N me dt nmemb thr sizes os /\
  cwritten_once N me dt nmemb (new_table sizes) os /\
  ~ ends N (fun res s => forall b, big_block_open (e 0%nat) (g_fs s) base = Ret (Some b) -> sums_ok (g_fs s) base sizes (b_fchecksum b))
      (launch (fun i => whole (ccreate_run N thr junk nbase e i base d nmemb sizes (os ++ [CFlush]))) f).
Proof.
  exists 3%nat, LE, 2, ex_junk, ex_nbase, (fun _ => ex_e), ex_base, (lit ">i4"), 2, [8], ex_f1, ex_cops2. cbv zeta.
  split; [lia|]. split; [reflexivity|]. split; [vm_compute; intuition discriminate|].
  split; [intros i _; apply ex_new; [exact ex_lay8|ex_neg]|]. split; [vm_compute; intuition discriminate|]. split; [|split].
  - change (dtype_normalize LE (lit ">i4")) with (lit ">i4"). unfold ex_cops2. cbn [chistory_ok csizes_after].
    split; [apply ex_cwrite; ex_neg|]. split; [exact I|]. split; [apply ex_cwrite; ex_neg|exact I].
  - change (dtype_normalize LE (lit ">i4")) with (lit ">i4"). cbn [cwritten_once ex_cops2]. split; [reflexivity|]. intros x t1 H1. split; [exact I|]. intros x2 t2 H2. inversion H2; subst.
    split; [|exact (fun _ _ _ => I)]. intros q Hq. rewrite (ex_written _ _ _ _ H1) by (right; lia). reflexivity.
  - intros H. apply (ends_exec_done 3 _ 2000) in H; [|vm_compute; reflexivity]. destruct H as (res & _ & H).
    destruct ex_wrong as (b & x & E1 & E2 & E3). specialize (H b E1 0%nat x (le_n 1) E2). rewrite H, Z.eqb_refl in E3. discriminate E3.
Qed.

(* ------------------------------------------------------------------ C64 *)
(* After any collective history that ends with a flush, a process on its own
   opens the block and any history it runs goes on from the same rows. *)
Theorem C64_then_serial : forall N me thr junk nbase e base d nmemb sizes, let dt := dtype_normalize me d in
  (0 < N)%nat -> (forall i, (i < N)%nat -> e_me (e i) = me) -> nul_free base -> forall f os e0,
  (forall i, (i < N)%nat -> new_block (e i) f base d nmemb sizes) -> nul_free d -> chistory_ok N me dt nmemb thr sizes os ->
  e_me e0 = me -> itemsize me dt * nmemb <= e_chunk e0 ->
  ends N (fun res s => exists xs t b t2, cspecs N me dt nmemb (new_table sizes) (os ++ [CFlush]) xs t /\ same_rows t t2 /\
      big_block_open e0 (g_fs s) base = Ret (Some b) /\ b_size b = t_size t /\
      forall hs, history_ok me dt nmemb (t_sizes t) hs -> exists ys f' b' t', hrun e0 (g_fs s, b) hs = Ret (ys, (f', b')) /\ hspecs me dt nmemb t2 hs ys t')
    (launch (fun i => whole (ccreate_run N thr junk nbase e i base d nmemb sizes (os ++ [CFlush]))) f).
Proof. exact coll_then_serial. Qed.
(* The other way round. *)
Theorem C64_then_collective : forall N me thr junk nbase e base d nmemb sizes, let dt := dtype_normalize me d in
  (0 < N)%nat -> (forall i, (i < N)%nat -> e_me (e i) = me) -> nul_free base -> forall e0 f hs ys f1 b1 os,
  new_block e0 f base d nmemb sizes -> e_me e0 = me -> (forall i, (i < N)%nat -> itemsize me dt * nmemb <= e_chunk (e i)) ->
  history_ok me dt nmemb sizes hs -> create_and_run e0 f base d nmemb sizes hs = Ret (Some (ys, (f1, b1))) -> b_dirty b1 = false -> no_attributes f1 base ->
  exists t, hspecs me dt nmemb (new_table sizes) hs ys t /\
    (chistory_ok N me dt nmemb thr (t_sizes t) os ->
     ends N (fun res s => exists xs t', cspecs N me dt nmemb t os xs t' /\ handles N base dt nmemb t' (fun i => snd (snd (res i))) /\
         forall i, (i < N)%nat -> fst (res i) = 0 /\ fst (snd (res i)) = map (fun x => x i) xs)
       (launch (fun i => whole (copen_run N thr junk nbase e i base os)) f1)).
Proof. exact serial_then_coll. Qed.

Definition ex_hs : list hop := [HWrite 1 ex_a ex_um; HGrow [3]; HFlush].
Definition ex_left := match create_and_run ex_e ex_f1 ex_base (lit ">i4") 2 [5] ex_hs with Ret (Some (ys, (f, b))) => (f, b) | _ => ([], ex_b) end.
Example C64_example :
  new_block ex_e ex_f1 ex_base (lit ">i4") 2 [5] /\ history_ok LE (lit ">i4") 2 [5] ex_hs /\
  (exists ys, create_and_run ex_e ex_f1 ex_base (lit ">i4") 2 [5] ex_hs = Ret (Some (ys, ex_left))) /\
  b_dirty (snd ex_left) = false /\ no_attributes (fst ex_left) ex_base /\
  chistory_ok 3 LE (lit ">i4") 2 2 [5; 3] [CRead 1 2 ex_arr ex_uw; CWrite 4 1 ex_arr ex_uw].
Proof.
  split; [apply ex_new; [exact ex_lay2|ex_neg]|]. split.
  { unfold ex_hs. cbn [history_ok sizes_after]. hist_tac. }
  split; [eexists; vm_compute; reflexivity|]. split; [vm_compute; reflexivity|]. split; [split; [vm_compute; reflexivity|vm_compute; auto]|].
  cbn [chistory_ok csizes_after]. split; [apply ex_cread; lia|]. split; [apply ex_cwrite; ex_neg|exact I].
Qed.

Definition C44_C65 := (C44_share, C44_create, C44_grow, C45_flush_partial, C45_refuted, C63_collective_history, C64_then_serial, C64_then_collective, C65_open, C65_flush).
Print Assumptions C44_C65.
