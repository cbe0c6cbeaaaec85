(* Property C77: a block made from arrays through FileMPI. *)
From Coq.Strings Require Import Byte String.
From Coq Require Import List ZArith Lia Bool Relations.
From Verif Require Import Base BaseFacts Dtype Cast Array FS Fmt Attr Block File Split Pack Spec AttrSpec OpenSpec HistSpec FileSpec Py PySpec Par MpiSpec Mpi
  LeadFacts PyNewFacts MpiPy MpiPyFacts Ex PropsHist PropsFile PropsPy.
Import ListNotations.
Open Scope Z_scope.

(* Full statement: whatever the arrays of the ranks, FileMPI.create_from_array
   makes a block with their rows, one rank after the other, and every rank gets
   a handle to it, or it raises an exception at every rank. False for rows wider
   than memorylimit / 1024 and if rank 0 fails, see below. Otherwise, for any
   number of ranks, under every schedule, with no deadlock and nothing
   undefined: every rank returns; the block has the type, the width, the number
   of files asked for and all rows of all arrays in the order of the ranks;
   every rank reads all of it; the checksums are valid; no other file is
   touched. *)
Theorem C77_arrays_partial : forall N me e junk nbase alloc f bf nm d items (rows : nat -> list bytes) Nf mlim,
  let base := path_join bf nm in let dt := dtype_normalize me d in let isz := itemsize me dt in
  let all := flat_map rows (seq 0 N) in let n := nfile_of (zlen all) Nf in
  (0 < N)%nat -> (forall i, (i < N)%nat -> e_me (e i) = me /\ isz * items <= e_chunk (e i) /\ alloc_ok (alloc i)) -> nul_free base ->
  new_from (e 0%nat) f bf nm d items all Nf -> 1024 * (isz * items) <= mlim ->
  ends N (fun res s => let f' := g_fs s in
      (forall i, (i < N)%nat -> exists b a m, res i = PyRet b /\
         b_size b = zlen all /\ b_dtype b = dt /\ b_nmemb b = items /\ b_Nfile b = n /\
         py_getitem (e i) (alloc i) f' b IEllipsis = Ret (PyRet (a, m)) /\ array_rows isz items dt a m all /\
         sums_ok f' base (np_split (zlen all) n) (b_fchecksum b)) /\
      (forall q x, ~ own_file base q -> fs_get f q = Some x -> fs_get f' q = Some x))
    (launch (fun i => whole (pm_create_from_array (junk i) (e i) (alloc i) (world N) i (nbase i) bf nm d items (rows i) Nf mlim)) f).
Proof.
  intros N me e junk nbase alloc f bf nm d items rows Nf mlim base dt isz all n HN He Hnb Hn Hm.
  assert (Hme : forall i, (i < N)%nat -> e_me (e i) = me) by (intros i Hi; apply (He i Hi)).
  assert (Hch : forall i, (i < N)%nat -> isz * items <= e_chunk (e i)) by (intros i Hi; apply (He i Hi)).
  assert (Hln : zlen (np_split (zlen all) n) = n).
  { destruct Hn. pose proof (zlen_nonneg all). destruct (nfile_bounds (zlen all) Nf) as (B1 & B2 & B3); [lia| |apply np_layout; auto; fold n in B1, B2, B3; lia].
    destruct Nf as [k|]; [|exact nf_N]. destruct nf_N as (X1 & X2 & X3). split; [exact X1|]. split; [|exact X3]. intros X. rewrite (X2 X). reflexivity. }
  apply (ends_leads N _ f (fun res f' => (forall i, (i < N)%nat -> exists b a m, res i = PyRet b /\
         b_size b = zlen all /\ b_dtype b = dt /\ b_nmemb b = items /\ b_Nfile b = n /\
         py_getitem (e i) (alloc i) f' b IEllipsis = Ret (PyRet (a, m)) /\ array_rows isz items dt a m all /\
         sums_ok f' base (np_split (zlen all) n) (b_fchecksum b)) /\
      (forall q x, ~ own_file base q -> fs_get f q = Some x -> fs_get f' q = Some x))).
  eapply leads_mono; [|apply (from_arrays N me e bf nm d items HN Hme (nf_items _ _ _ _ _ _ _ _ Hn) Hch Hnb junk nbase alloc f rows Nf mlim); auto; intros i Hi; apply (He i Hi)].
  cbv beta. intros res g (R & K). split; [|exact K]. intros i Hi. destruct (R i Hi) as (b & Er & G1 & G2 & G3 & G4 & (a & m & G5 & G6) & G7).
  exists b, a, m. fold all n in G4. rewrite Hln in G4. repeat (split; [assumption|]). exact G7.
Qed.
Print Assumptions C77_arrays_partial.

(* Rows that are too wide: every rank raises ValueError, the block exists but
   holds nothing. *)
Theorem C77_wide_rows : forall N me e junk nbase alloc f bf nm d items (rows : nat -> list bytes) Nf mlim,
  let base := path_join bf nm in let dt := dtype_normalize me d in let isz := itemsize me dt in
  let all := flat_map rows (seq 0 N) in
  (0 < N)%nat -> (forall i, (i < N)%nat -> e_me (e i) = me /\ isz * items <= e_chunk (e i) /\ alloc_ok (alloc i)) -> nul_free base ->
  new_from (e 0%nat) f bf nm d items all Nf -> 0 <= mlim < 1024 * (isz * items) ->
  ends N (fun res s => forall i, (i < N)%nat -> res i = PyRaise ValueError /\
      exists b, big_file_open_block (e i) (g_fs s) bf nm = Ret (Some b) /\ b_size b = zlen all /\
        (all <> [] -> py_getitem (e i) (alloc i) (g_fs s) b IEllipsis = Ret (PyRaise BigError)))
    (launch (fun i => whole (pm_create_from_array (junk i) (e i) (alloc i) (world N) i (nbase i) bf nm d items (rows i) Nf mlim)) f).
Proof.
  intros N me e junk nbase alloc f bf nm d items rows Nf mlim base dt isz all HN He Hnb Hn Hm. apply (ends_leads N _ f (fun res g => forall i, (i < N)%nat -> res i = PyRaise ValueError /\
      exists b, big_file_open_block (e i) g bf nm = Ret (Some b) /\ b_size b = zlen all /\ (all <> [] -> py_getitem (e i) (alloc i) g b IEllipsis = Ret (PyRaise BigError)))).
  assert (Hme : forall i, (i < N)%nat -> e_me (e i) = me) by (intros i Hi; apply (He i Hi)).
  assert (Hch : forall i, (i < N)%nat -> isz * items <= e_chunk (e i)) by (intros i Hi; apply (He i Hi)).
  eapply leads_mono; [|apply (from_wide N me e bf nm d items HN Hme (nf_items _ _ _ _ _ _ _ _ Hn) Hch Hnb junk nbase alloc f rows Nf mlim); auto; intros i Hi; apply (He i Hi)].
  cbv beta. intros res g (R & K) i Hi. auto.
Qed.
Print Assumptions C77_wide_rows.

(* Ranks that disagree on the name: every rank raises Error and no file is
   touched. *)
Theorem C77_names : forall N e junk nbase alloc f bf (nm : nat -> bytes) d items (rows : nat -> list bytes) Nf mlim,
  (0 < N)%nat -> total N (fun i => zlen (rows i)) < 2 ^ 63 -> (exists i j, (i < N)%nat /\ (j < N)%nat /\ nm i <> nm j) ->
  ends N (fun res s => g_fs s = f /\ forall i, (i < N)%nat -> res i = PyRaise BigError)
    (launch (fun i => whole (pm_create_from_array (junk i) (e i) (alloc i) (world N) i (nbase i) bf (nm i) d items (rows i) (Nf i) (mlim i))) f).
Proof.
  intros N e junk nbase alloc f bf nm d items rows Nf mlim HN Ht Hd. apply (ends_leads N _ f (fun res g => g = f /\ forall i, (i < N)%nat -> res i = PyRaise BigError)).
  apply lead_differ; auto.
Qed.
Print Assumptions C77_names.

(* If rank 0 cannot create the block, FileMPI.create does not raise an exception
   at every rank: no other rank ever returns, under any schedule. *)
Theorem C77_failure_hangs : forall N e f bf nm d items size Nfile s i x, (0 < i < N)%nat ->
  Nfile < 0 \/ 0 < Nfile /\ (exists f1, big_file_create_block (e 0%nat) f bf nm (Some d) items Nfile (np_split size Nfile) = Ret (f1, None)) ->
  clos_refl_trans _ (fun s s' => exists j, step N s j s') (launch (fun i => whole (pm_create (e i) (world N) i bf nm d items size Nfile)) f) s ->
  g_ps s i <> Done x.
Proof. intros N e f bf nm d items size Nfile s i x Hi H R. eapply create_hangs; [..|exact R]; [lia|exact H|exact Hi]. Qed.
Print Assumptions C77_failure_hangs.

(* Three ranks with two rows, none and one, of two 4-byte integers, in two
   files. *)
Definition ex_ranks (i : nat) : list bytes := match i with O => [lit "abcdefgh"; lit "ijklmnop"] | 2%nat => [lit "qrstuvwx"] | _ => [] end.
Example C77_example : let e := fun _ : nat => ex_env LE 4096 in
  (forall i, (i < 3)%nat -> e_me (e i) = LE /\ 4 * 2 <= e_chunk (e i) /\ alloc_ok ex_alloc) /\ nul_free (path_join (lit "d") (lit "x/y")) /\
  new_from (e 0%nat) ex_f1 (lit "d") (lit "x/y") (lit "=i4") 2 (flat_map ex_ranks (seq 0 3)) (Some 2) /\ 1024 * (4 * 2) <= 2 ^ 13 /\
  itemsize LE (dtype_normalize LE (lit "=i4")) = 4 /\ 0 <= 1000 < 1024 * (4 * 2) /\ total 3 (fun i => zlen (ex_ranks i)) = 3 /\ lit "x" <> lit "y".
Proof.
  split; [intros i _; split; [reflexivity|split; [discriminate|exact ex_alloc_ok]]|]. split; [intros X; repeat (destruct X as [X|X]; [discriminate X|]); exact X|].
  split; [|repeat split; try discriminate; vm_compute; congruence].
  apply ex_from; try (split; reflexivity); try reflexivity; try (vm_compute; congruence).
  - exact ex_i4_type.
  - repeat constructor.
  - split; vm_compute; congruence.
Qed.

(* A block name below a file: rank 0 gets an error, rank 1 waits for ever. *)
Theorem C77_failure_refuted : exists e f bf nm d items size, 
  (exists f1, big_file_create_block (e 0%nat) f bf nm (Some d) items 1 (np_split size 1) = Ret (f1, None)) /\
  (exists b, big_file_open (f : fs) bf = Some b) /\
  forall P, ~ ends 2 P (launch (fun i => whole (pm_create (e i) (world 2) i bf nm d items size 1)) f).
Proof.
  set (f := fs_set ex_f1 (resolve (lit "d/x")) (File [])).
  assert (E : exists f1, big_file_create_block (ex_env LE 4096) f (lit "d") (lit "x/y") (Some (lit "=i4")) 2 1 (np_split 3 1) = Ret (f1, None)) by (eexists; vm_compute; reflexivity).
  exists (fun _ => ex_env LE 4096), f, (lit "d"), (lit "x/y"), (lit "=i4"), 2, 3. split; [exact E|]. split; [eexists; vm_compute; reflexivity|].
  intros P X. assert (G : forall s, ends 2 P s -> clos_refl_trans _ (fun s s' => exists j, step 2 s j s') (launch (fun i => whole (pm_create (ex_env LE 4096) (world 2) i (lit "d") (lit "x/y") (lit "=i4") 2 3 1)) f) s -> False).
  { intros s Es. induction Es as [s res Hd _ _|s _ (i & s' & St) _ IH]; intros R.
    - eapply (C77_failure_hangs 2 (fun _ => ex_env LE 4096) f (lit "d") (lit "x/y") (lit "=i4") 2 3 1 s 1 (res 1%nat)); [lia|right; split; [lia|exact E]|exact R|apply Hd; lia].
    - eapply IH; [exact St|]. eapply rt_trans; [exact R|]. apply rt_step. eauto. }
  apply (G _ X). apply rt_refl.
Qed.
Print Assumptions C77_failure_refuted.
