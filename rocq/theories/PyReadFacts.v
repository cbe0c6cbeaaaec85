(* Proofs about Column.read into an array of the caller. *)
From Coq.Strings Require Import Byte String.
From Coq Require Import List ZArith Lia Bool ZifyBool ZifyNat.
From Verif Require Import Base BaseFacts Dtype Cast Array FS Fmt Attr Block File Split Spec AttrSpec OpenSpec HistSpec FileSpec Py PySpec
  DtypeFacts ArrayFacts SeekFacts ConvFacts WriteFacts ReadFacts IOFacts OpenFacts HistFacts AggFacts MpiFacts StepFacts MiscFacts FileFacts FrameFacts RecNewFacts PyFacts PyRead PyReadSpec.
Import ListNotations.
Open Scope Z_scope.
Local Open Scope out_scope.
Ltac Zify.zify_post_hook ::= Z.div_mod_to_equations.

Section Read.
Variables (e : env) (base dt : bytes) (nmemb : Z).
Let isz := itemsize (e_me e) dt.
Let w := isz * nmemb.
Hypothesis Hbn : block_name base.
Hypothesis Hty : header_type dt.
Hypothesis Hnm31 : 0 < nmemb < 2 ^ 31.
Hypothesis Hwc : w <= e_chunk e.
Hypothesis Hw31 : w < 2 ^ 31.
Hypothesis Hdt : dt_ok (e_me e) dt.
Hypothesis Hnorm : dtype_normalize (e_me e) dt = dt.
Notation inv := (hinv e base dt nmemb w).

Lemma into_length t f b start length o m : inv t f b -> 0 <= start < 2 ^ 63 -> -1 <= length -> start + length < 2 ^ 63 ->
  py_read_into e f b start length o m =
  match nd_dims o with
  | [] => Undef OOB
  | n :: _ =>
      if negb (n =? asked (t_size t) start length) then Ret (PyRaise ValueError, m) else
      if negb (itemsize (e_me e) (nd_type o) =? isz) then Ret (PyRaise ValueError, m) else
      a <- big_array_init (e_me e) (nd_data o) dt (nd_dims o) (Some (nd_strides o)) ;;
      '(rc, p) <- big_block_seek b (mkPtr 0 0 0) start ;;
      if negb (rc =? 0) then Ret (PyRaise BigError, m) else
      '(rc, _, m) <- big_block_read e f b p a m ;;
      Ret (if negb (rc =? 0) then PyRaise BigError else PyRet tt, m)
  end.
Proof.
  intros I H1 H2 H3. destruct (hinv_size _ _ _ _ _ _ _ _ I) as (Es & Ed & En & HL). pose proof (hl_small _ _ HL) as Hsm. pose proof (zsum_nonneg _ (hl_nonneg _ _ HL)) as Hz.
  unfold py_read_into. rewrite Es, Ed. fold isz. cbv zeta.
  set (n := if t_size t <? _ then _ else _). assert (En2 : n = asked (t_size t) start length); [|rewrite En2; reflexivity].
  unfold n, asked, t_size in *. destruct (length =? -1) eqn:E.
  - replace (s64 (zsum (t_sizes t) - start + start)) with (zsum (t_sizes t)) by (unfold s64; lia). rewrite Z.ltb_irrefl. reflexivity.
  - replace (s64 (length + start)) with (length + start) by (unfold s64; lia). rewrite (Z.add_comm length start). reflexivity.
Qed.

Lemma into_step f b start a m :
  (r <- ('(rc, p) <- big_block_seek b (mkPtr 0 0 0) start ;;
      if negb (rc =? 0) then Ret (PyRaise BigError, m) else
      '(rc, _, m) <- big_block_read e f b p a m ;;
      Ret (if negb (rc =? 0) then PyRaise BigError else PyRet tt, m)) ;; Ret r) =
  ('(x, st) <- hstep e (f, b) (HRead start a m) ;; Ret (if negb (fst x =? 0) then PyRaise BigError else PyRet tt, match snd x with Some m => m | None => m end)).
Proof.
  cbn [hstep]. destruct (big_block_seek b (mkPtr 0 0 0) start) as [[r p]|u|]; cbn [bind]; [|reflexivity|reflexivity].
  destruct (negb (r =? 0)) eqn:Er; [cbn [bind fst snd]; rewrite Er; reflexivity|].
  destruct (big_block_read e f b p a m) as [[[r2 p2] m2]|u|]; cbn [bind fst snd]; reflexivity.
Qed.
Lemma bind_ret {A} (x : out A) : (r <- x ;; Ret r) = x.
Proof. destruct x; reflexivity. Qed.

Lemma into_read t f b start length o m : inv t f b -> 0 <= start < 2 ^ 63 -> -1 <= length -> start + length < 2 ^ 63 ->
  let n := asked (t_size t) start length in let a := seen_as dt o in
  out_fits nmemb isz n o -> itemsize (e_me e) (nd_type o) = isz -> 0 < n -> n * nmemb < 2 ^ 63 -> mapped m (elem_addr a) isz 0 (n * nmemb) ->
  exists r m', py_read_into e f b start length o m = Ret (r, m') /\
    (forall es, zlen es = n * nmemb -> Forall (fun v => Datatypes.length v = Z.to_nat isz) es ->
       (forall j v, nth_error (rows_of nmemb n es) j = Some v -> shows w t (start + Z.of_nat j) v) -> r = PyRet tt /\ wrote m m' (elem_addr a) isz 0 es) /\
    ((exists k, start <= k < start + n /\ absent t k) -> r = PyRaise BigError) /\
    (r = PyRet tt \/ r = PyRaise BigError) /\
    (forall x, ~ in_elems (elem_addr a) isz 0 (n * nmemb) x -> m' x = m x).
Proof.
  intros I H1 H2 H3 n a [Hd Hp Hpr Hst H32 Hdis] Hit Hn Hnn Hm.
  rewrite (into_length t) by assumption. fold n. destruct (nd_dims o) as [|n0 rest] eqn:Edims; [destruct Hd|]. destruct Hd as [-> Hr].
  rewrite Z.eqb_refl. cbn [negb]. cbv iota. rewrite Hit, Z.eqb_refl. cbn [negb]. cbv iota.
  assert (Ea : big_array_init (e_me e) (nd_data o) dt (n :: rest) (Some (nd_strides o)) = Ret a).
  { unfold big_array_init. replace (32 <? zlen (n :: rest)) with false by lia. rewrite Hst, Nat.eqb_refl, Hnorm. unfold a, seen_as. rewrite Edims. reflexivity. }
  rewrite Ea. cbn [bind].
  rewrite <- (bind_ret (bind (big_block_seek b (mkPtr 0 0 0) start) _)). rewrite into_step.
  assert (Sa : a_size a = n * nmemb) by (unfold a, seen_as; cbn [a_size]; rewrite Edims; unfold zprod in *; cbn [fold_right]; rewrite Hr; reflexivity).
  assert (Hnr : nrows nmemb a = n) by (unfold nrows; rewrite Sa; apply Z.div_mul; lia).
  assert (Hok : hop_ok (e_me e) dt nmemb (t_sizes t) (HRead start a m)).
  { cbn [hop_ok]. rewrite Hnr. split; [exact H1|]. split; [lia|]. split; [constructor; unfold a, seen_as; cbn [a_strides a_dims a_size]; rewrite Edims; auto; discriminate|].
    split; [exact Hdt|]. split; [left; reflexivity|]. split; [intros v _; exists v; apply converts_self|]. split; [exact Hm|exact Hdis]. }
  destruct (hist_step e base dt nmemb w Hbn Hty (proj2 Hnm31) Hwc Hw31 t f b (HRead start a m) I Hok) as (x & f1 & b1 & t1 & E1 & S1 & _).
  rewrite E1. cbn [bind]. inversion S1 as [| |? ? ? rc m' R1 R2 R3 R4 R5| | |]. subst t1 x. cbn [fst snd]. rewrite Hnr in *. 
  assert (Hle : start + n <= t_size t). { unfold n, asked in *. destruct (length =? -1); [lia|]. destruct (t_size t <? start + length) eqn:?; lia. }
  eexists _, m'. split; [reflexivity|]. split; [|split; [|split; [|exact R5]]].
  - intros es L F S. destruct (R2 es es Hle L F S (converts_selfs _ _ _)) as [-> W]. split; [reflexivity|exact W].
  - intros (k & Hk & Ab). rewrite (R3 k Hle Hk Ab). reflexivity.
  - destruct R4 as [->|[-> _]]; [right|left]; reflexivity.
Qed.

Lemma into_none t f b start length o m : inv t f b -> 0 <= start <= t_size t -> -1 <= length -> start + length < 2 ^ 63 -> asked (t_size t) start length = 0 ->
  out_fits nmemb isz 0 o -> itemsize (e_me e) (nd_type o) = isz -> py_read_into e f b start length o m = Ret (PyRet tt, m).
Proof.
  intros I Ho H2 H3 Hn [Hd Hp Hpr Hst H32 Hdis] Hit. destruct (hinv_size _ _ _ _ _ _ _ _ I) as (Es & Ed & En & HL). pose proof (hl_small _ _ HL) as Hsm. unfold t_size in *.
  rewrite (into_length t) by (auto; lia). unfold t_size. rewrite Hn. destruct (nd_dims o) as [|n0 rest] eqn:Edims; [destruct Hd|]. destruct Hd as [-> Hr].
  change (negb (0 =? 0)) with false. cbv iota. rewrite Hit, Z.eqb_refl. cbn [negb]. cbv iota.
  unfold big_array_init at 1. replace (32 <? zlen (0 :: rest)) with false by lia. rewrite Hst, Nat.eqb_refl. cbn [bind].
  destruct (seek_nonneg b (t_sizes t) (mkPtr 0 0 0) start HL Ho) as (p & E & P & _). rewrite E. cbn [bind]. change (negb (0 =? 0)) with false. cbv iota.
  assert (Hw : 0 < w) by (unfold w, isz in *; destruct Hdt; nia).
  unfold big_block_read, felsize, row_nmemb, chunk_rows. rewrite Ed, En. fold isz. replace (nmemb =? 0) with false by lia. fold w.
  replace (2 ^ 31 <=? Z.abs w) with false by lia. replace (w =? 0) with false by lia.
  unfold felsize, row_nmemb. rewrite Ed, En. fold isz. replace (nmemb =? 0) with false by lia. fold w.
  unfold big_array_init at 1. change (32 <? zlen [e_chunk e / u64 w; nmemb]) with false. cbv iota. cbn [bind].
  rewrite (foffset_nth b (t_sizes t)) by (auto; apply P). cbn [or_ub bind]. cbn [a_size]. replace (zprod (0 :: rest) / nmemb) with 0 by (unfold zprod; cbn [fold_right]; rewrite Z.mul_0_l, Z.div_0_l; lia).
  rewrite (pa_abs _ _ _ P), Z.add_0_r. replace (s64 start) with start by (unfold s64; lia). replace (u64 start) with start by (unfold u64; lia).
  rewrite (hl_size _ _ HL). replace (zsum (t_sizes t) <? start) with false by lia. cbn [Z.to_nat read_loop bind]. reflexivity.
Qed.

Lemma into_mismatch t f b start length o m : inv t f b -> 0 <= start < 2 ^ 63 -> -1 <= length -> start + length < 2 ^ 63 -> nd_dims o <> [] ->
  (forall n rest, nd_dims o = n :: rest -> n <> asked (t_size t) start length) \/ itemsize (e_me e) (nd_type o) <> isz ->
  py_read_into e f b start length o m = Ret (PyRaise ValueError, m).
Proof.
  intros I H1 H2 H3 Hd H. rewrite (into_length t) by assumption. destruct (nd_dims o) as [|n rest] eqn:E; [congruence|].
  destruct (n =? asked (t_size t) start length) eqn:En; cbn [negb]; [|reflexivity]. destruct H as [H|H]; [destruct (H n rest eq_refl); lia|].
  replace (itemsize (e_me e) (nd_type o) =? isz) with false by lia. reflexivity.
Qed.
End Read.

