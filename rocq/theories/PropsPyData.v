(* Property C79: a Dataset of the Python package is a list of records. *)
From Coq.Strings Require Import Byte String.
From Coq Require Import List ZArith Lia Bool ZifyBool.
From Verif Require Import Base BaseFacts Dtype Cast Array FS Fmt Attr Block File Record Spec AttrSpec OpenSpec HistSpec FileSpec RecSpec Py PySpec PyData PyDataSpec
  RecNewFacts PyDataFacts Ex PropsHeader PropsFile PropsPy.
Import ListNotations.
Open Scope Z_scope.

(* The specification is in PyDataSpec.v. Whatever was done to the columns as
   records before, as long as every record has been written: Dataset(file,
   names) opens, with the record type of the columns and their size; every
   history of indexing, assignment and append on it answers as the list of
   records does (dspec), its size is always the length of the list, and a
   Dataset opened afterwards is the same. *)
Theorem C79_dataset_partial : forall e bf rt f sizes os alloc, rec_kind e bf rt -> rt_itemsize rt < 2 ^ 31 ->
  (forall fd, In fd (rt_fields rt) -> numpy_type (e_me e) (rf_dtype fd)) ->
  new_records e bf rt f sizes -> rops_ok rt sizes os -> alloc_ok alloc ->
  exists xs f1 T rt', create_records_and_run e f bf rt sizes os = Ret (0, (xs, f1)) /\ rspecs (e_me e) rt (new_table sizes) os xs T /\
    same_type (e_me e) rt rt' /\ py_dataset e bf f1 (field_names rt) = Ret (PyRet (mkDs rt' (t_size T))) /\
    forall L ops, written T L -> size_ok rt (zlen L) -> dops_ok rt' (zlen L) (zlen (t_sizes T)) ops ->
    exists ys f2 ds L', drun e bf alloc (f1, mkDs rt' (t_size T)) ops = Ret (ys, (f2, ds)) /\ dspecs (e_me e) rt' L ops ys L' /\
      ds_size ds = zlen L' /\ py_dataset e bf f2 (field_names rt) = Ret (PyRet ds).
Proof. exact dataset_story. Qed.

(* A name that is no block, or columns of different lengths: bigfile.Error. *)
Theorem C79_columns : forall e bf f names,
  (forall nm, In nm names -> exists ob, big_file_open_block e f bf nm = Ret ob /\ forall b, ob = Some b -> np_str (b_dtype b) <> None) ->
  (exists nm, In nm names /\ big_file_open_block e f bf nm = Ret None) \/
  (exists nm nm' b b', In nm names /\ In nm' names /\ big_file_open_block e f bf nm = Ret (Some b) /\
     big_file_open_block e f bf nm' = Ret (Some b') /\ b_size b <> b_size b') ->
  py_dataset e bf f names = Ret (PyRaise BigError).
Proof.
  intros e bf f names H1 H2. unfold py_dataset, py_bind. rewrite columns_differ; [reflexivity|exact H1|].
  destruct H2 as [H2|H2]; [left; exact H2|right; right; exact H2].
Qed.

(* ------------------------------------------------------------------ an example *)
(* Five records of three f8 and one >i4, written. *)
Definition ex_dos : list rop := [RWrite 0 5 100 ex_um].
Definition ex_L : list bytes := map (fun j => match load ex_um (100 + Z.of_nat j * 28) 28 with Some v => v | None => [] end) (seq 0 5).
Definition ex_v (d n : Z) : recarr := mkRA d 28 n true.
Definition ex_dops : list dsop :=
  [DGet (ISlice (Some (-3)) None None); DGet (IInt 4); DSet (ISlice (Some 1) (Some 3) None) (ex_v 500 2) ex_um; DGet (ISlice None None (Some 2));
   DGet (ISlice (Some 2) (Some 1) None); DAppend (ex_v 600 3) ex_um 2; DGet IEllipsis; DSet IEllipsis (ex_v 600 3) ex_um; DAppend (ex_v 600 3) ex_um 0].
Definition ex_type : rtype :=
  mkRtype [mkField (Some (lit "Pos")) (lit "<f8") 3 0 8; mkField (Some (lit "gas/ID")) (lit ">i4") 1 24 4] 28.
Lemma ex_vrecs d n : 0 <= d -> 0 <= n -> d + n * 28 <= 2000 -> exists recs, array_recs ex_type ex_um (ex_v d n) recs.
Proof.
  intros Hd Hn H. exists (map (fun j => match load ex_um (d + Z.of_nat j * 28) 28 with Some v => v | None => [] end) (seq 0 (Z.to_nat n))).
  split; [unfold zlen; rewrite map_length, seq_length; cbn; lia|]. intros j x Hj. rewrite nth_error_map in Hj.
  destruct (nth_error (seq 0 (Z.to_nat n)) j) as [k|] eqn:E; [|discriminate]. cbn [option_map] in Hj.
  apply (f_equal (fun o => match o with Some y => y | None => x end)) in Hj. cbv beta iota in Hj. subst x.
  assert (k = j).
  { assert (Hl : (j < length (seq 0 (Z.to_nat n)))%nat) by (apply nth_error_Some; congruence). rewrite seq_length in Hl.
    pose proof (@seq_nth (Z.to_nat n) 0 j 0%nat Hl) as S. apply nth_error_nth with (d := 0%nat) in E. lia. }
  subst k. assert (Hj : (j < Z.to_nat n)%nat).
  { assert (Hl : (j < length (seq 0 (Z.to_nat n)))%nat) by (apply nth_error_Some; congruence). rewrite seq_length in Hl. exact Hl. }
  cbn [ra_data ra_stride ex_v rt_itemsize ex_type]. change (Z.to_nat 28) with 28%nat.
  destruct (load_some ex_um (d + Z.of_nat j * 28) 28) as (l & El); [|rewrite El; reflexivity].
  intros i Hi. unfold ex_um. replace (0 <=? d + Z.of_nat j * 28 + Z.of_nat i) with true by lia. replace (d + Z.of_nat j * 28 + Z.of_nat i <? 2000) with true by lia. discriminate.
Qed.
Definition ex_df : fs := match create_records_and_run ex_re ex_f1 (lit "d") ex_rt ex_sizes ex_dos with Ret (_, (_, f)) => f | _ => [] end.
Definition ex_ds : dset := mkDs ex_type 5.
Lemma ex_ds_open : py_dataset ex_re (lit "d") ex_df (field_names ex_rt) = Ret (PyRet ex_ds).
Proof. vm_compute. reflexivity. Qed.
Example C79_example : rec_kind ex_re (lit "d") ex_rt /\ rt_itemsize ex_rt < 2 ^ 31 /\
  (forall fd, In fd (rt_fields ex_rt) -> numpy_type LE (rf_dtype fd)) /\
  new_records ex_re (lit "d") ex_rt ex_f1 ex_sizes /\ rops_ok ex_rt ex_sizes ex_dos /\ alloc_ok ex_alloc /\
  (forall xs T, rspecs LE ex_rt (new_table ex_sizes) ex_dos xs T -> written T ex_L) /\ size_ok ex_rt (zlen ex_L) /\
  dops_ok ex_type (zlen ex_L) (zlen ex_sizes) ex_dops /\
  py_dataset ex_re (lit "d") ex_df (field_names ex_rt) = Ret (PyRet (mkDs ex_type 5)).
Proof.
  assert (Hat : recs_at ex_rt ex_um 100 5 ex_L).
  { split; [reflexivity|]. intros j v H. do 5 (destruct j as [|j]; [injection H as <-; vm_compute; reflexivity|]). destruct j; discriminate. }
  split; [exact ex_kind|]. split; [reflexivity|]. split.
  { intros fd [<-|[<-|[]]]; [exists "<"%byte, "f"%byte, (lit "8")|exists ">"%byte, "i"%byte, (lit "4")]; (split; [reflexivity|]).
    - split; [right; cbn; auto|left; reflexivity].
    - split; [right; cbn; auto|right; split; discriminate]. }
  split; [apply C39_example|]. split.
  { split; [|exact I]. split; [split; [lia|reflexivity]|]. split; [apply ex_counts; lia|]. exists ex_L. exact Hat. }
  split; [exact ex_alloc_ok|]. split.
  { intros xs T S. inversion S as [|t0 o1 x1 t1 os1 xs1 t2 S1 S2]; subst. inversion S2; subst. split.
    - inversion S1; subst; reflexivity.
    - intros j v Hj. inversion S1 as [o1 n1 b1 m1 um1 recs1 R1 A1 L1|o1 n1 b1 m1 R1| |]; subst; [|exfalso; cbn in R1; lia].
      cbn [with_rows t_row]. destruct A1 as [A1 A2], Hat as [B1 B2].
      assert (Hjl : (j < length ex_L)%nat) by (apply nth_error_Some; congruence). change (length ex_L) with 5%nat in Hjl.
      replace ((0 <=? Z.of_nat j) && (Z.of_nat j <? 0 + zlen recs1)) with true by lia. replace (Z.to_nat (Z.of_nat j - 0)) with j by lia.
      destruct (nth_error recs1 j) as [v'|] eqn:E; [|apply nth_error_None in E; unfold zlen in A1; lia].
      pose proof (A2 j v' E) as H1. pose proof (B2 j v Hj) as H2. congruence. }
  assert (HS : forall n, 0 <= n < 1000 -> size_ok ex_type n).
  { intros n Hn. change (2 ^ 63) with 9223372036854775808. split; [change (2 ^ 63) with 9223372036854775808; lia|]. change (2 ^ 63) with 9223372036854775808. intros fd [<-|[<-|[]]]; cbn; lia. }
  assert (HV : forall d n, 0 <= d -> 0 < n -> d + n * 28 <= 2000 -> value_ok ex_type (ex_v d n) ex_um).
  { intros d n H1 H2 H3. split; [exact H2|]. split; [reflexivity|]. apply ex_vrecs; lia. }
  split.
  { change (zlen ex_L) with 5. split; [reflexivity|]. intros fd [<-|[<-|[]]]; reflexivity. }
  split; [|exact ex_ds_open]. change (zlen ex_L) with 5. change (zlen ex_sizes) with 3.
  cbn [dops_ok ex_dops ra_same ra_len ex_v andb]. change (0 <? 2) with true. change (0 <? 0) with false. cbv iota.
  split; [apply HV; lia|]. split; [apply HV; lia|]. split; [reflexivity|]. split; [discriminate|]. split; [apply HS; vm_compute; split; [discriminate|reflexivity]|].
  split; [apply HV; lia|]. split; [apply HV; lia|exact I].
Qed.

(* ------------------------------------------------------------------ where it is not a list *)
(* A slice whose stop lies before its start, and ds[-1]: ValueError. *)
Theorem C79_back_refuted : exists e bf alloc f names ds, alloc_ok alloc /\ py_dataset e bf f names = Ret (PyRet ds) /\ 1 < ds_size ds /\
  ds_getitem e bf alloc f ds (ISlice (Some 2) (Some 1) None) = Ret (PyRaise ValueError, f) /\
  ds_getitem e bf alloc f ds (IInt (-1)) = Ret (PyRaise ValueError, f).
Proof.
  exists ex_re, (lit "d"), ex_alloc, ex_df, (field_names ex_rt), ex_ds. split; [exact ex_alloc_ok|]. split; [exact ex_ds_open|].
  split; [reflexivity|]. split; reflexivity.
Qed.
(* Assignment ignores the distance between the records of the array: with a
   view such as v[::2] other records are stored, without an error. *)
Definition ex_view : recarr := mkRA 100 56 2 true.
Theorem C79_view_refuted : exists e bf alloc f names ds v um recs um' p m st, py_dataset e bf f names = Ret (PyRet ds) /\
  ra_same v = true /\ array_recs (ds_rt ds) um v recs /\ zlen recs = 2 /\
  drun e bf alloc (f, ds) [DSet (ISlice (Some 0) (Some 2) None) v um; DGet (ISlice (Some 0) (Some 2) None)] =
    Ret ([Done (PyRet tt) um'; GotVal (PyRet (Recs p 2, m))], st) /\
  ~ recs_at (ds_rt ds) m p 2 recs.
Proof.
  pose (ops := [DSet (ISlice (Some 0) (Some 2) None) ex_view ex_um; DGet (ISlice (Some 0) (Some 2) None)]).
  assert (H : match drun ex_re (lit "d") ex_alloc (ex_df, ex_ds) ops with
              | Ret ([Done (PyRet tt) _; GotVal (PyRet (Recs p n, m))], _) =>
                  (n =? 2) && match load m (p + 28) 28, nth_error ex_L 2 with Some x, Some y => negb (bytes_eqb x y) | _, _ => false end
              | _ => false
              end = true) by (vm_compute; reflexivity).
  destruct (drun ex_re (lit "d") ex_alloc (ex_df, ex_ds) ops) as [[[|[|[[]|] um'] [|[[[[p n|] m]|]|] [|]]] st]|u|] eqn:E; try discriminate H.
  apply andb_prop in H. destruct H as [Hn H]. apply Z.eqb_eq in Hn. subst n.
  exists ex_re, (lit "d"), ex_alloc, ex_df, (field_names ex_rt), ex_ds, ex_view, ex_um, (firstn 1 ex_L ++ firstn 1 (skipn 2 ex_L)), um', p, m, st.
  split; [exact ex_ds_open|]. split; [reflexivity|]. split.
  { split; [reflexivity|]. intros j x Hj. do 2 (destruct j as [|j]; [injection Hj as <-; vm_compute; reflexivity|]). destruct j; discriminate. }
  split; [reflexivity|]. split; [exact E|]. intros [_ R]. specialize (R 1%nat _ eq_refl).
  change (p + Z.of_nat 1 * rt_itemsize (ds_rt ex_ds)) with (p + 28) in R. change (Z.to_nat (rt_itemsize (ds_rt ex_ds))) with 28%nat in R. rewrite R in H. vm_compute in H. discriminate.
Qed.
(* A column of strings written on a machine of the other byte order: the
   column reads as it was written, the Dataset shows every string reversed. *)
Definition ex_srt : rtype := mkRtype [mkField (Some (lit "s")) (lit "|S3") 1 0 3] 3.
Definition ex_sum : mem := fun x => if (100 <=? x) && (x <? 106) then nth_error (lit "abcxyz") (Z.to_nat (x - 100)) else None.
Definition ex_sf : fs :=
  match create_records_and_run (ex_env BE 64) ex_f1 (lit "d") ex_srt [2] [RWrite 0 2 100 ex_sum] with Ret (_, (_, f)) => f | _ => [] end.
Theorem C79_strings_refuted : exists e bf alloc f nm b a m ds p m' f',
  big_file_open_block e f bf nm = Ret (Some b) /\ py_getitem e alloc f b IEllipsis = Ret (PyRet (a, m)) /\
  load m (a_data a) 6 = Some (lit "abcxyz") /\
  py_dataset e bf f [nm] = Ret (PyRet ds) /\ ds_getitem e bf alloc f ds IEllipsis = Ret (PyRet (Recs p 2, m'), f') /\
  load m' p 6 = Some (lit "cbazyx").
Proof.
  pose (nm := lit "s").
  assert (H : match big_file_open_block ex_re ex_sf (lit "d") nm with
              | Ret (Some b) =>
                  match py_getitem ex_re ex_alloc ex_sf b IEllipsis, py_dataset ex_re (lit "d") ex_sf [nm] with
                  | Ret (PyRet (a, m)), Ret (PyRet ds) =>
                      match ds_getitem ex_re (lit "d") ex_alloc ex_sf ds IEllipsis with
                      | Ret (PyRet (Recs p n, m'), _) =>
                          (n =? 2) && match load m (a_data a) 6, load m' p 6 with
                                      | Some x, Some y => bytes_eqb x (lit "abcxyz") && bytes_eqb y (lit "cbazyx")
                                      | _, _ => false end
                      | _ => false
                      end
                  | _, _ => false
                  end
              | _ => false
              end = true) by (vm_compute; reflexivity).
  destruct (big_file_open_block ex_re ex_sf (lit "d") nm) as [[b|]| |] eqn:E1; [|discriminate H|discriminate H|discriminate H].
  destruct (py_getitem ex_re ex_alloc ex_sf b IEllipsis) as [[[a m]|]| |] eqn:E2; [|discriminate H|discriminate H|discriminate H].
  destruct (py_dataset ex_re (lit "d") ex_sf [nm]) as [[ds|]| |] eqn:E3; [|discriminate H|discriminate H|discriminate H].
  destruct (ds_getitem ex_re (lit "d") ex_alloc ex_sf ds IEllipsis) as [[[[[p n|p] m']|x] f']| |] eqn:E4; [|discriminate H|discriminate H|discriminate H|discriminate H].
  apply andb_prop in H. destruct H as [Hn H]. apply Z.eqb_eq in Hn. subst n.
  destruct (load m (a_data a) 6) as [x|] eqn:E5; [|discriminate H]. destruct (load m' p 6) as [y|] eqn:E6; [|discriminate H].
  apply andb_prop in H. destruct H as [H1 H2]. apply bytes_eqb_eq in H1, H2. subst x y.
  exists ex_re, (lit "d"), ex_alloc, ex_sf, nm, b, a, m, ds, p, m', f'. auto 10.
Qed.
Print Assumptions C79_dataset_partial.
Print Assumptions C79_columns.
Print Assumptions C79_view_refuted.
Print Assumptions C79_strings_refuted.
