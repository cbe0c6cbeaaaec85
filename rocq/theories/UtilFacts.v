(* Proofs about bigfile-create: a block made too large and cut to size. *)
From Coq.Strings Require Import Byte String.
From Coq Require Import List ZArith Lia Bool ZifyBool ZifyNat.
From Verif Require Import Base BaseFacts Dtype Cast Array FS Fmt Attr Block File Spec AttrSpec OpenSpec HistSpec FileSpec PySpec Util UtilSpec
  FSFacts DtypeFacts ArrayFacts SeekFacts ConvFacts WriteFacts ReadFacts IOFacts AttrFacts AttrFileFacts OpenFacts ReopenFacts HistFacts AggFacts MpiFacts StepFacts MiscFacts FileFacts FrameFacts RecNewFacts PyFacts PyNewFacts.
Import ListNotations.
Open Scope Z_scope.
Local Open Scope out_scope.
Ltac Zify.zify_post_hook ::= Z.div_mod_to_equations.

(* the same block with one file of n rows *)
Definition resize (b : block) (n : Z) : block :=
  mkBlock (b_dtype b) (b_nmemb b) (b_base b) n [n; 0] [0; n] (b_fchecksum b) 1 (b_attrset b) (b_dirty b).

Lemma s64_pos x : 0 <= x < 2 ^ 63 -> s64 x = x.
Proof. intros H. apply s64_id. lia. Qed.

Lemma resize_seek b p n o : 0 <= o <= n -> o < 2 ^ 63 -> big_block_seek (resize b n) p o = Ret (0, mkPtr 0 o o).
Proof.
  intros H1 H2. unfold big_block_seek. cbn [resize b_size b_foffset b_Nfile].
  destruct ((n =? 0) && (o =? 0)) eqn:E0; [replace o with 0 by lia; reflexivity|].
  replace (o <? 0) with false by lia. cbn [bind]. rewrite u64_id by lia. replace (n <? o) with false by lia.
  change (seek_search [0; n] o 0 1 (S (Z.to_nat 1))) with (@Ret Z 0). cbn [bind]. change (znth [0; n] 0) with (Some 0). cbn [or_ub bind].
  rewrite Z.sub_0_r, s64_pos by lia. reflexivity.
Qed.

Definition grown (S : Z) (x : Z * fs * block * bptr * mem) : out (Z * fs * block * bptr * mem) :=
  let '(rc, f, b, p, um) := x in Ret (rc, f, resize b S, p, um).

Lemma loop_resize e cs ca S s : 0 <= cs -> 0 <= s <= S -> s < 2 ^ 63 -> S < 2 ^ 64 ->
  forall fuel f b o cb um ai n, 0 <= o -> 0 <= n -> o + n <= s ->
  write_loop e f (resize b S) (mkPtr 0 o o) cb ca um ai cs n fuel =
  (x <- write_loop e f (resize b s) (mkPtr 0 o o) cb ca um ai cs n fuel ;; grown S x).
Proof.
  intros Hcs Hs H63 H64. induction fuel as [|k IH]; intros f b o cb um ai n Ho Hn Hb; [reflexivity|].
  cbn [write_loop]. destruct (negb (0 <? n)) eqn:En; [reflexivity|].
  unfold big_block_eof. cbn [resize b_foffset p_fileid p_roffset b_size]. change (znth [0; S] 0) with (Some 0). change (znth [0; s] 0) with (Some 0).
  cbn [or_ub bind]. rewrite Z.add_0_l, s64_pos, u64_id by lia.
  replace (S <=? o) with false by lia. replace (s <=? o) with false by lia.
  assert (Hc : forall m, 0 <= s <= m -> m < 2 ^ 64 -> next_chunk (resize b m) (mkPtr 0 o o) cs n = Ret (Z.min cs n)).
  { intros m H1 H2. unfold next_chunk. cbn [resize b_fsize p_fileid p_roffset]. change (znth [m; 0] 0) with (Some m). cbn [or_ub bind].
    rewrite u64_id by lia. f_equal. destruct (m - o <? cs) eqn:E1; destruct (n <? _) eqn:E2; lia. }
  rewrite !Hc by lia. cbn [bind]. set (c := Z.min cs n). cbn [b_nmemb resize].
  destruct (dtype_convert (e_me e) cb (iter_init (e_me e) ca) um ai (Z.to_nat (c * b_nmemb b))) as [[[[[rc cb1] di] um1] ai1]|u|]; cbn [bind]; try reflexivity.
  destruct (negb (rc =? 0)); [reflexivity|].
  change (felsize e (resize b S)) with (felsize e b). change (felsize e (resize b s)) with (felsize e b).
  destruct (load cb1 0 (Z.to_nat (c * felsize e b))) as [l|]; cbn [or_ub bind]; [|reflexivity].
  cbn [b_fchecksum resize]. destruct (znth (b_fchecksum b) 0) as [old|]; cbn [or_ub bind]; [|reflexivity].
  destruct (zupd (b_fchecksum b) 0 (sysvsum old l)) as [cks|]; cbn [or_ub bind]; [|reflexivity].
  cbn [b_base resize]. destruct (fopen_rp f (data_path (b_base b) 0)) as [cont|]; [|reflexivity].
  destruct (o * felsize e b <? 0); [reflexivity|].
  change (set_checksums (resize b S) cks) with (resize (set_checksums b cks) S).
  change (set_checksums (resize b s) cks) with (resize (set_checksums b cks) s).
  set (b1 := set_checksums b cks).
  assert (Hr : forall m, 0 <= s <= m -> big_block_seek_rel (resize b1 m) (mkPtr 0 o o) c = Ret (0, mkPtr 0 (o + c) (o + c))).
  { intros m Hm. unfold big_block_seek_rel. cbn [resize b_foffset p_fileid p_roffset]. change (znth [0; m] 0) with (Some 0). cbn [or_ub bind].
    rewrite Z.add_0_l, s64_pos by lia. apply resize_seek; lia. }
  rewrite !Hr by lia. cbn [bind]. change (negb (0 =? 0)) with false. cbv iota. apply IH; lia.
Qed.

Lemma write_resize e f b o a um S s : 0 <= s <= S -> s < 2 ^ 63 -> S < 2 ^ 64 -> 0 <= e_chunk e -> 0 < b_nmemb b -> 0 <= a_size a -> 0 <= felsize e b ->
  0 <= o -> o + a_size a / b_nmemb b <= s ->
  big_block_write e f (resize b S) (mkPtr 0 o o) a um = (x <- big_block_write e f (resize b s) (mkPtr 0 o o) a um ;; grown S x).
Proof.
  intros Hs H63 H64 Hch Hnm Ha Hf Ho Hb. unfold big_block_write, big_block_write_fuel.
  destruct (a_size a =? 0); [reflexivity|].
  change (set_bdirty (resize b S) true) with (resize (set_bdirty b true) S). change (set_bdirty (resize b s) true) with (resize (set_bdirty b true) s).
  set (b1 := set_bdirty b true). change (felsize e (resize b1 S)) with (felsize e b). change (felsize e (resize b1 s)) with (felsize e b).
  destruct (2 ^ 31 <=? Z.abs (felsize e b)) eqn:E1; [reflexivity|]. destruct (felsize e b =? 0) eqn:E2; [reflexivity|].
  change (chunk_rows e (resize b1 S)) with (chunk_rows e b). change (chunk_rows e (resize b1 s)) with (chunk_rows e b).
  change (row_nmemb (resize b1 S)) with (row_nmemb b). change (row_nmemb (resize b1 s)) with (row_nmemb b).
  change (row_nmemb (resize b S)) with (row_nmemb b). change (row_nmemb (resize b s)) with (row_nmemb b).
  assert (Er : row_nmemb b = b_nmemb b) by (unfold row_nmemb; destruct (b_nmemb b =? 0) eqn:E; lia). rewrite Er.
  cbn [resize b1 b_dtype b_nmemb set_bdirty].
  destruct (big_array_init (e_me e) 0 (b_dtype b) [chunk_rows e b; b_nmemb b] None) as [ca|u|]; cbn [bind]; try reflexivity.
  cbn [p_fileid p_roffset]. change (znth (b_foffset (resize b1 S)) 0) with (Some 0). change (znth (b_foffset (resize b1 s)) 0) with (Some 0). cbn [or_ub bind].
  change (b_size (resize b1 S)) with S. change (b_size (resize b1 s)) with s.
  assert (Hq : 0 <= a_size a / b_nmemb b) by (apply Z.div_pos; lia).
  rewrite Z.add_0_l, s64_pos, u64_id by lia.
  replace (S <? _) with false by lia. replace (s <? _) with false by lia.
  apply (loop_resize e (chunk_rows e b) ca S s); auto.
  unfold chunk_rows. unfold u64. apply Z.div_pos; [lia|]. assert (0 < felsize e b < 2 ^ 64) by lia. rewrite Z.mod_small; lia.
Qed.

(* a write changes checksums, and marks the block *)
Lemma loop_shape e ca cs : forall fuel f b p cb um ai n rc f' b' p' um', write_loop e f b p cb ca um ai cs n fuel = Ret (rc, f', b', p', um') ->
  b' = set_checksums b (b_fchecksum b').
Proof.
  induction fuel as [|k IH]; intros f b p cb um ai n rc f' b' p' um'; cbn [write_loop]; [discriminate|].
  assert (Hb : forall b0 : block, b0 = set_checksums b0 (b_fchecksum b0)) by (intros []; reflexivity).
  destruct (negb (0 <? n)); [intros X; injection X as <- <- <- <- <-; apply Hb|].
  destruct (big_block_eof b p) as [[]|u|]; cbn [bind]; try discriminate; [intros X; injection X as <- <- <- <- <-; apply Hb|].
  destruct (next_chunk b p cs n) as [c|u|]; cbn [bind]; try discriminate.
  destruct (dtype_convert _ _ _ _ _ _) as [[[[[rc1 cb1] di] um1] ai1]|u|]; cbn [bind]; try discriminate.
  destruct (negb (rc1 =? 0)); [intros X; injection X as <- <- <- <- <-; apply Hb|].
  destruct (load cb1 0 _) as [l|]; cbn [or_ub bind]; [|discriminate]. destruct (znth _ _) as [old|]; cbn [or_ub bind]; [|discriminate].
  destruct (zupd _ _ _) as [cks|]; cbn [or_ub bind]; [|discriminate].
  destruct (fopen_rp _ _) as [cont|]; [|intros X; injection X as <- <- <- <- <-; reflexivity].
  destruct (_ <? 0); [intros X; injection X as <- <- <- <- <-; reflexivity|].
  destruct (big_block_seek_rel _ _ _) as [[rc2 p1]|u|]; cbn [bind]; try discriminate.
  destruct (negb (rc2 =? 0)); [intros X; injection X as <- <- <- <- <-; reflexivity|].
  intros X. apply IH in X. rewrite X. reflexivity.
Qed.
Lemma write_shape e f b p a um rc f' b' p' um' : a_size a <> 0 -> big_block_write e f b p a um = Ret (rc, f', b', p', um') ->
  b' = set_checksums (set_bdirty b true) (b_fchecksum b').
Proof.
  intros Ha. unfold big_block_write, big_block_write_fuel. replace (a_size a =? 0) with false by lia.
  destruct (2 ^ 31 <=? _); [discriminate|]. destruct (_ =? 0); [discriminate|].
  destruct (big_array_init _ _ _ _ _) as [ca|u|]; cbn [bind]; try discriminate. destruct (znth _ _) as [o|]; cbn [or_ub bind]; [|discriminate].
  destruct (_ <? _); [intros X; injection X as <- <- <- <- <-; destruct b; reflexivity|]. apply loop_shape.
Qed.
Lemma write_dirty e f b p a um : a_size a <> 0 -> big_block_write e f (set_bdirty b true) p a um = big_block_write e f b p a um.
Proof. intros Ha. unfold big_block_write, big_block_write_fuel. replace (a_size a =? 0) with false by lia. reflexivity. Qed.

Lemma seek_any b p p0 o q : big_block_seek b p o = Ret (0, q) -> big_block_seek b p0 o = Ret (0, q).
Proof.
  unfold big_block_seek. destruct ((b_size b =? 0) && (o =? 0)); [auto|].
  destruct (if o <? 0 then _ else _) as [o'|u|]; cbn [bind]; try discriminate. destruct (b_size b <? u64 o'); [discriminate|auto].
Qed.

(* ------------------------------------------------------------------ writing whole rows *)
Section Rows.
Variables (e : env) (base dt : bytes) (nmemb : Z).
Let isz := itemsize (e_me e) dt.
Let w := isz * nmemb.
Hypothesis Hbn : block_name base.
Hypothesis Hty : header_type dt.
Hypothesis Hnm31 : 0 < nmemb < 2 ^ 31.
Hypothesis Hwc : w <= e_chunk e.
Hypothesis Hw31 : w < 2 ^ 31.
Hypothesis Hdt : dt_ok (e_me e) dt.
Notation inv := (hinv e base dt nmemb w).

Lemma chunk_source b rows m : b_dtype b = dt -> b_nmemb b = nmemb -> rows <> [] -> Forall (fun v => length v = Z.to_nat w) rows ->
  load m 0 (length (concat rows)) = Some (concat rows) ->
  let es := group (Z.to_nat isz) (Z.to_nat (zlen rows * nmemb)) (concat rows) in
  source (e_me e) dt nmemb (chunk_array (e_me e) b (zlen rows)) m es es /\ rows_of nmemb (zlen rows) es = rows.
Proof.
  intros E1 E2 Hne HF Hm es. assert (Hi : 0 < isz) by apply Hdt. assert (Hn : 0 < zlen rows) by (destruct rows; [congruence|rewrite zlen_cons; pose proof (zlen_nonneg rows); lia]).
  pose proof (concat_zlen e dt nmemb Hnm31 Hdt rows HF) as Hcl. fold isz w in Hcl.
  assert (Hln : length (concat rows) = (Z.to_nat isz * Z.to_nat (zlen rows * nmemb))%nat) by (unfold zlen, w in *; nia).
  assert (Hle : zlen es = zlen rows * nmemb) by (unfold es, zlen at 1; rewrite DtypeFacts.group_length; nia).
  split; [|apply (elems_rows e dt nmemb Hnm31 Hdt); auto].
  split; [unfold nrows; cbn [chunk_array a_size]; rewrite E2, Z.div_mul by lia; exact Hle|]. cbn [a_dtype chunk_array]. rewrite E1. split; [|apply converts_selfs].
  fold isz. apply (holds_of_load _ _ isz 0); [lia|apply group_widths; exact Hln| |].
  - intros j Hj. rewrite chunk_addr by (rewrite ?E2; lia). rewrite E1. unfold isz. lia.
  - rewrite Z.mul_0_l, Z.add_0_r, Hle. unfold es. rewrite concat_group by lia. replace (Z.to_nat (zlen rows * nmemb * isz)) with (length (concat rows)) by (rewrite Hln; nia). exact Hm.
Qed.

Lemma write_chunk t f b p0 o rows m : inv t f b -> rows <> [] -> Forall (fun v => length v = Z.to_nat w) rows -> 0 <= o -> o + zlen rows <= t_size t -> t_size t * nmemb < 2 ^ 63 ->
  load m 0 (length (concat rows)) = Some (concat rows) ->
  exists p f' b' p' m', big_block_seek b p0 o = Ret (0, p) /\ big_block_write e f b p (chunk_array (e_me e) b (zlen rows)) m = Ret (0, f', b', p', m') /\
    inv (with_rows t o rows) f' b' /\ frames base f f' /\
    ((forall q, o <= q < o + zlen rows -> t_row t q = None) -> sums_ok f base (t_sizes t) (b_fchecksum b) -> sums_ok f' base (t_sizes t) (b_fchecksum b')).
Proof.
  intros I Hne HF Ho Hs H4 Hm. destruct (hinv_size _ _ _ _ _ _ _ _ I) as (_ & Edt & Enm & HL). pose proof (hl_small _ _ HL) as H63.
  destruct (chunk_source b rows m Edt Enm Hne HF Hm) as [Hsrc Hrows]. set (es := group _ _ _) in *.
  assert (Hn : 0 < zlen rows) by (destruct rows; [congruence|rewrite zlen_cons; pose proof (zlen_nonneg rows); lia]).
  set (a := chunk_array (e_me e) b (zlen rows)) in *.
  assert (Hnr : nrows nmemb a = zlen rows) by (unfold nrows, a; cbn [chunk_array a_size]; rewrite Enm; apply Z.div_mul; lia).
  assert (Hda : a_dtype a = dt) by exact Edt.
  assert (Hok : hop_ok (e_me e) dt nmemb (t_sizes t) (HWrite o a m)).
  { unfold t_size in *. split; [lia|]. split; [cbn [a_size chunk_array a]; rewrite Enm; nia|]. split; [apply chunk_array_ok; rewrite ?Enm; lia|]. rewrite Hda. split; [exact Hdt|]. split; [left; reflexivity|].
    split; [exists es, es; exact Hsrc|]. intros _. rewrite Hnr, <- Edt. apply chunk_disjoint; rewrite ?Enm, ?Edt; try lia. apply Hdt. }
  destruct (hist_step e base dt nmemb w Hbn Hty ltac:(lia) Hwc Hw31 t f b _ I Hok) as (x & f2 & b2 & t2 & E2 & S2 & I2 & Z2 & W2).
  pose proof (hstep_frames e f b (HWrite o a m) x f2 b2 ltac:(rewrite (hl_Nfile _ _ HL); apply zlen_nonneg) ltac:(discriminate) E2) as [Fr _].
  rewrite (hv_base _ _ _ _ _ _ _ _ I) in Fr.
  assert (Hia : 0 < itemsize (e_me e) (a_dtype a)) by (rewrite Hda; apply Hdt).
  clear Edt Enm Hda. inversion S2 as [o0 a0 um0 um' vs outs H1 H2 H3|o0 a0 um0 H1| | | |]; subst; [|rewrite Hnr in H1; lia].
  destruct (source_unique e dt nmemb a m vs outs es es ltac:(lia) Hia H2 Hsrc) as [-> ->]. rewrite Hnr, Hrows in *.
  cbn [hstep] in E2. destruct (big_block_seek b (mkPtr 0 0 0) o) as [[rc q]|u|] eqn:Es; cbn [bind] in E2; try discriminate E2.
  destruct (negb (rc =? 0)) eqn:Er; [assert (rc = 0) by congruence; lia|]. assert (rc = 0) by lia. subst rc.
  destruct (big_block_write e f b q a m) as [[[[[rc2 f3] b3] p3] m3]|u|] eqn:Ew; cbn [bind] in E2; try discriminate E2.
  assert (rc2 = 0) by congruence. assert (f3 = f2) by congruence. assert (b3 = b2) by congruence. subst.
  exists q, f2, b2, p3, m3. split; [eapply seek_any; exact Es|]. split; [exact Ew|]. split; [exact I2|]. split; [exact Fr|].
  intros Hq Hso. apply W2; [|exact Hso]. cbn [once]. intros _. rewrite Hnr. exact Hq.
Qed.

Lemma read_simple_eq f b o k : b_dtype b = dt -> b_nmemb b = nmemb -> 0 <= k -> 0 <= o <= b_size b -> b_size b < 2 ^ 63 -> o + k < 2 ^ 64 ->
  let c := Z.min k (b_size b - o) in
  big_block_read_simple e f b o k None =
  ('(rc, p) <- big_block_seek b (mkPtr 0 0 0) o ;;
   if negb (rc =? 0) then Ret (-1, None) else
   '(rc2, _, um') <- big_block_read e f b p (chunk_array (e_me e) b c) (malloc_mem 0 (c * isz * nmemb)) ;;
   if negb (rc2 =? 0) then Ret (-1, None) else Ret (0, Some (chunk_array (e_me e) b c, um'))).
Proof.
  intros E1 E2 Hk Ho Hs Hok c. unfold big_block_read_simple. destruct (big_block_seek b (mkPtr 0 0 0) o) as [[rc p]|u|]; cbn [bind]; try reflexivity.
  destruct (negb (rc =? 0)); [reflexivity|]. rewrite u64_s64, u64_id by lia.
  assert (Ec : (if b_size b <? o + k then s64 (b_size b - o) else k) = c) by (destruct (b_size b <? o + k) eqn:E; rewrite ?s64_pos by lia; unfold c; lia).
  rewrite Ec. replace (c <? 0) with false by (unfold c; lia). rewrite E1. fold isz. rewrite <- E1 at 1. rewrite chunk_array_init by (rewrite E1; exact Hdt). rewrite E2. reflexivity.
Qed.

Lemma read_zero t f b o k : inv t f b -> 0 <= k -> 0 <= o <= t_size t -> o + k < 2 ^ 64 -> Z.min k (t_size t - o) = 0 ->
  exists m, big_block_read_simple e f b o k None = Ret (0, Some (chunk_array (e_me e) b 0, m)).
Proof.
  intros I Hk Ho Hok Hc. destruct (hinv_size _ _ _ _ _ _ _ _ I) as (Es & Ed & En & HL). pose proof (hl_small _ _ HL) as H63. fold (t_size t) in H63.
  rewrite (read_simple_eq f b o k Ed En Hk ltac:(lia) ltac:(lia) Hok). rewrite Es, Hc. unfold t_size in *.
  destruct (seek_nonneg b (t_sizes t) (mkPtr 0 0 0) o HL Ho) as (p & E & P & _). rewrite E. cbn [bind]. change (negb (0 =? 0)) with false. cbv iota.
  assert (Hi : 0 < isz) by apply Hdt. assert (Hw : 0 < w) by (unfold w; nia).
  unfold big_block_read, felsize, row_nmemb, chunk_rows. rewrite Ed, En. fold isz. replace (nmemb =? 0) with false by lia. fold w.
  replace (2 ^ 31 <=? Z.abs w) with false by lia. replace (w =? 0) with false by lia.
  unfold felsize, row_nmemb. rewrite Ed, En. fold isz. replace (nmemb =? 0) with false by lia. fold w.
  unfold big_array_init at 1. change (32 <? zlen [e_chunk e / u64 w; nmemb]) with false. cbv iota. cbn [bind].
  rewrite (foffset_nth b (t_sizes t)) by (auto; apply P). cbn [or_ub bind]. cbn [a_size chunk_array]. replace (0 * b_nmemb b / nmemb) with 0 by (rewrite Z.mul_0_l, Z.div_0_l; lia).
  rewrite (pa_abs _ _ _ P), Z.add_0_r. replace (s64 o) with o by (unfold s64; lia). replace (u64 o) with o by (unfold u64; lia).
  rewrite (hl_size _ _ HL). replace (zsum (t_sizes t) <? o) with false by lia. cbn [Z.to_nat read_loop]. eexists. reflexivity.
Qed.

Lemma read_chunk t f b o k : inv t f b -> 0 < k -> 0 <= o < t_size t -> t_size t * nmemb < 2 ^ 63 -> o + k < 2 ^ 64 ->
  let c := Z.min k (t_size t - o) in
  (forall rows, zlen rows = c -> Forall (fun v => length v = Z.to_nat w) rows ->
     (forall j v, nth_error rows j = Some v -> shows w t (o + Z.of_nat j) v) ->
     exists m, big_block_read_simple e f b o k None = Ret (0, Some (chunk_array (e_me e) b c, m)) /\
       load m 0 (length (concat rows)) = Some (concat rows)) /\
  ((exists r, o <= r < o + c /\ absent t r) -> big_block_read_simple e f b o k None = Ret (-1, None)).
Proof.
  intros I Hk Ho Hsm Hok c. destruct (hinv_size _ _ _ _ _ _ _ _ I) as (Es & Ed & En & HL). pose proof (hl_small _ _ HL) as H63. fold (t_size t) in H63.
  rewrite (read_simple_eq f b o k Ed En ltac:(lia) ltac:(lia) ltac:(lia) Hok). rewrite Es. fold c. assert (Hc : 0 < c) by (unfold c; lia).
  set (a := chunk_array (e_me e) b c). set (um := malloc_mem 0 (c * isz * nmemb)). assert (Hi : 0 < isz) by apply Hdt.
  assert (Hnr : nrows nmemb a = c) by (unfold nrows, a; cbn [chunk_array a_size]; rewrite En; apply Z.div_mul; lia).
  assert (Hda : a_dtype a = dt) by exact Ed.
  assert (Hadr : forall j, 0 <= j < c * nmemb -> elem_addr a j = j * isz) by (intros j Hj; unfold a; rewrite chunk_addr by (rewrite ?En; lia); rewrite Ed; reflexivity).
  assert (Hop : hop_ok (e_me e) dt nmemb (t_sizes t) (HRead o a um)).
  { split; [lia|]. split; [unfold a; cbn [chunk_array a_size]; rewrite En; unfold c; nia|]. split; [apply chunk_array_ok; rewrite ?En; lia|]. rewrite Hda. split; [exact Hdt|]. split; [left; reflexivity|].
    split; [intros v _; exists v; apply StepFacts.converts_self|]. rewrite Hnr. fold isz. split.
    - intros x (j & Hj & Hx). rewrite Hadr in Hx by lia. unfold um, malloc_mem. replace ((0 <=? x) && (x <? 0 + c * isz * nmemb)) with true by nia. discriminate.
    - unfold isz. rewrite <- Ed. apply chunk_disjoint; rewrite ?En, ?Ed; try lia. }
  destruct (hist_step e base dt nmemb w Hbn Hty ltac:(lia) Hwc Hw31 t f b _ I Hop) as (x & f2 & b2 & t2 & E2 & S2 & _).
  clear Ed En. inversion S2 as [| |o0 a0 um0 rc um' Hfar Hsh Hab Hrc Hfr| | |]; subst t2 x o0 a0 um0. rewrite Hnr in Hsh, Hab. rewrite Hda in Hsh. fold isz in Hsh.
  assert (Er : ('(rc, p) <- big_block_seek b (mkPtr 0 0 0) o ;;
   if negb (rc =? 0) then Ret (-1, None) else
   '(rc2, _, um') <- big_block_read e f b p a um ;;
   if negb (rc2 =? 0) then Ret (-1, None) else Ret (0, Some (a, um'))) = Ret (if rc =? 0 then (0, Some (a, um')) else (-1, None))).
  { cbn [hstep] in E2. destruct (big_block_seek b _ o) as [[r p]|u|]; cbn [bind] in *; try discriminate E2.
    destruct (negb (r =? 0)) eqn:Er; [assert (r = rc) by congruence; subst r; replace (rc =? 0) with false by lia; reflexivity|].
    destruct (big_block_read e f b p a um) as [[[r2 p2] um2]|u|]; cbn [bind] in *; try discriminate E2. assert (r2 = rc) by congruence. assert (um2 = um') by congruence. subst.
    destruct (rc =? 0); reflexivity. }
  rewrite Er. split.
  - intros rows Hl HFr Hrows. set (es := group (Z.to_nat isz) (Z.to_nat (c * nmemb)) (concat rows)).
    pose proof (concat_zlen e dt nmemb Hnm31 Hdt rows HFr) as Hcl. fold isz w in Hcl. rewrite Hl in Hcl.
    assert (Hln : length (concat rows) = (Z.to_nat isz * Z.to_nat (c * nmemb))%nat) by (unfold zlen, w in Hcl; nia).
    assert (Hle : zlen es = c * nmemb) by (unfold es, zlen; rewrite DtypeFacts.group_length; nia).
    destruct (Hsh es es) as [-> Hw]; try (unfold c; lia); auto.
    + apply group_widths. exact Hln.
    + intros j v Hj. unfold es in Hj. rewrite (elems_rows e dt nmemb Hnm31 Hdt) in Hj by assumption. apply Hrows. exact Hj.
    + apply StepFacts.converts_selfs.
    + exists um'. split; [reflexivity|].
      pose proof (concat_load um' (elem_addr a) isz 0 es 0 ltac:(lia)) as X.
      assert (Hce : concat es = concat rows) by (apply concat_group; lia). rewrite Z.mul_0_l, Z.add_0_r, Hle, Hce in X.
      replace (length (concat rows)) with (Z.to_nat (c * nmemb * isz)) by (rewrite Hln; nia). apply X.
      * intros j Hj. rewrite Hadr by lia. lia.
      * destruct Hw as [Hw _]. intros j v Hj. apply Hw. exact Hj.
  - intros (r & Hr & Ha). rewrite (Hab r); auto. unfold c. lia.
Qed.

Lemma read_all t f b rows : inv t f b -> shows_all w t rows -> zlen rows * nmemb < 2 ^ 63 ->
  exists m, big_block_read_simple e f b 0 (b_size b) None = Ret (0, Some (chunk_array (e_me e) b (zlen rows), m)) /\ load m 0 (length (concat rows)) = Some (concat rows).
Proof.
  intros I (Hl & HF & HS) Hsm. destruct (hinv_size _ _ _ _ _ _ _ _ I) as (Es & _ & _ & HL). pose proof (hl_small _ _ HL) as H63. fold (t_size t) in H63. pose proof (zlen_nonneg rows).
  rewrite Es. destruct (Z.eq_dec (zlen rows) 0) as [H0|H0].
  - destruct (read_zero t f b 0 (t_size t) I) as (m & E); try lia. rewrite H0. exists m. split; [exact E|]. destruct rows; [reflexivity|rewrite zlen_cons in H0; pose proof (zlen_nonneg rows); lia].
  - destruct (read_chunk t f b 0 (t_size t) I) as [R _]; try lia. rewrite Z.sub_0_r, Z.min_id, <- Hl in R. rewrite <- Hl. apply R; auto.
Qed.
End Rows.

(* ------------------------------------------------------------------ the block as created *)
Lemma huge_image b S : exists img, header_image b = Ret img \/ length (b_fchecksum b) <> 2%nat \/ b_fsize b <> [S; 0] \/ b_Nfile b <> 1.
Proof.
  destruct (b_fchecksum b) as [|c1 [|c2 [|c3 l]]] eqn:Ec; try (exists []; right; left; cbn; lia).
  destruct (list_eq_dec Z.eq_dec (b_fsize b) [S; 0]) as [Ef|Ef]; [|exists []; auto].
  destruct (Z.eq_dec (b_Nfile b) 1) as [En|En]; [|exists []; auto]. unfold header_image. rewrite En. change (Z.to_nat 1) with 1%nat. cbn [header_lines]. rewrite Ef, Ec.
  eexists. left. reflexivity.
Qed.

Lemma create_huge e f base d nmemb n : let dt := dtype_normalize (e_me e) d in let w := itemsize (e_me e) dt * nmemb in
  block_name base -> block_dir f base -> fs_get f (attr1_path base) = None -> 0 < nmemb -> dt_ok (e_me e) dt -> 0 <= n < 2 ^ 63 ->
  exists f' b, big_block_create e f base (Some d) nmemb 1 [2 ^ 64 - 1] = Ret (f', Some (resize b (2 ^ 64 - 1))) /\
    hinv e base dt nmemb w (new_table [n]) f' (set_bdirty (resize b n) true) /\ sums_ok f' base [n] (b_fchecksum b) /\ b_dirty b = false.
Proof.
  intros dt w (Hmeta & Hlen & Hbl) Hd Ha1 Hnm Hdt Hn. unfold big_block_create, create_internal. rewrite Hbl, strdup_id, Hmeta by auto.
  change (1 <? -1) with false. change ((1 <? 0) || (zlen [2 ^ 64 - 1] <? 1)) with false. cbv iota.
  change (firstn (Z.to_nat 1) [2 ^ 64 - 1]) with [2 ^ 64 - 1]. change (offsets 0 [2 ^ 64 - 1]) with [0; 2 ^ 64 - 1].
  change (last [0; 2 ^ 64 - 1] 0) with (2 ^ 64 - 1). change ([2 ^ 64 - 1] ++ [0]) with [2 ^ 64 - 1; 0].
  change (repeat 0 (S (Z.to_nat 1))) with [0; 0]. set (B := 2 ^ 64 - 1). fold dt.
  set (s0 := set_dirty (attrset_create (e_malloc e)) true).
  set (b0 := mkBlock dt nmemb base B [B; 0] [0; B] [0; 0] 1 s0 true).
  assert (Hok : as_ok (e_me e) s0 []) by (apply as_ok_dirty, create_ok).
  destruct (huge_image b0 B) as (img & [Himg|[X|[X|X]]]); try (exfalso; apply X; reflexivity).
  pose proof Hd as (D1 & D2 & D3 & D4).
  set (f1 := fs_set (fs_set f (header_path base) (File [])) (header_path base) (File img)).
  assert (Hd1 : block_dir f1 base).
  { apply block_dir_set; [apply header_plain|]. apply block_dir_set; [apply header_plain|]. auto. }
  pose proof Hd1 as (D1' & D2' & D3' & D4').
  set (f2 := fs_set (fs_set f1 (attr2_path base) (File [])) (attr2_path base) (File [])).
  assert (Hd2 : block_dir f2 base).
  { apply block_dir_set; [apply attr2_plain|]. apply block_dir_set; [apply attr2_plain|]. auto. }
  assert (Ef : big_block_flush e f b0 = Ret (0, f2, set_attrs (set_bdirty b0 false) (set_dirty s0 false))).
  { unfold big_block_flush. cbn [b0 b_dirty b_base]. fold b0. unfold header_path at 1. rewrite (fopen_w_ok f base (lit "header") header_plain) by auto.
    fold (header_path base). rewrite Himg. cbn [bind]. change (negb (0 =? 0)) with false. cbv iota.
    change (as_dirty (b_attrset (set_bdirty b0 false))) with true. cbv iota. change (b_base (set_bdirty b0 false)) with base. fold f1.
    unfold attr2_path at 1. rewrite (fopen_w_ok f1 base (lit "attr-v2") attr2_plain) by auto. fold (attr2_path base).
    change (as_list (b_attrset (set_bdirty b0 false))) with (@nil attr). cbn [attr_lines bind]. reflexivity. }
  rewrite Ef. cbn [bind]. change (negb (0 =? 0)) with false. cbv iota. cbn [bind].
  set (b1 := set_bdirty _ false). change (b_base b1) with base. change (b_Nfile b1) with 1. change (Z.to_nat 1) with 1%nat.
  destruct (truncate_spec base 1 f2 0 ltac:(lia) ltac:(lia) Hd2) as (f3 & Et & Hd3 & G3 & O3).
  rewrite Et. cbn [bind]. change (negb (0 =? 0)) with false. cbv iota.
  exists f3, (mkBlock dt nmemb base 0 [] [] [0; 0] 0 (set_dirty s0 false) false). split; [reflexivity|].
  set (bb := set_bdirty (resize _ n) true).
  assert (Hlay : layout_ok [n]) by (split; [repeat constructor; lia|]; split; cbn; lia).
  assert (Hdata : forall i, (i < 1)%nat -> data_file f3 base i = Some []) by (intros i Hi; unfold data_file; rewrite G3 by lia; reflexivity).
  assert (Oa : forall p, p <> header_path base -> p <> attr2_path base -> (forall j, 0 <= j < 1 -> p <> data_path base j) -> fs_get f3 p = fs_get f p).
  { intros p H1 H2 H3. rewrite O3 by (intros (j & Hj & ->); apply (H3 j); [lia|reflexivity]). unfold f2, f1. rewrite !fs_get_set_other by auto. reflexivity. }
  assert (Ha' : fs_get f3 (attr1_path base) = None).
  { rewrite Oa; [exact Ha1| | |]; [intros X; symmetry in X; revert X; apply header_not_attr1|apply attr1_not_attr2|intros j Hj X; symmetry in X; revert X; apply data_not_attr1; lia]. }
  assert (Ha2 : fs_get f3 (attr2_path base) = Some (File [])).
  { rewrite O3; [|intros (j & Hj & Ej); symmetry in Ej; revert Ej; apply data_not_attr2; lia]. apply fs_get_set_same, attr2_path_proper. }
  destruct (open_attrs_none e f3 base Ha') as (s & Es & Os & Ds); [auto|].
  assert (Lb : has_layout bb [n]).
  { constructor; cbn; try reflexivity; try lia; repeat constructor; try lia. unfold first_row. cbn. f_equal. f_equal. lia. }
  assert (Hwp : 0 < w) by (destruct Hdt; unfold w; nia).
  split.
  - constructor; cbn [new_table t_sizes t_row t_sum length]; auto.
    + constructor; auto.
    + cbn. lia.
    + intros i Hi. rewrite Hdata by auto. discriminate.
    + intros i c Hi Hc. rewrite Hdata in Hc by auto. injection Hc as <-. exists 0. split; [|reflexivity]. destruct i; [cbn|cbn in Hi]; lia.
    + intros r v Hr. discriminate Hr.
    + intros r v Hr. rewrite fresh_rows in Hr by auto. discriminate Hr.
    + discriminate.
    + exists s. auto.
    + intros i Hi. destruct i; [reflexivity|lia].
  - split; [|reflexivity]. intros i c Hi Hc. cbn in Hi. rewrite Hdata in Hc by auto. injection Hc as <-. destruct i; [reflexivity|lia].
Qed.

(* ------------------------------------------------------------------ the input *)
Lemma load_put um D : forall l k, (exists pre post, D = pre ++ l ++ post /\ length pre = k) -> load (put_bytes um D) (Z.of_nat k) (length l) = Some l.
Proof.
  induction l as [|c l IH]; intros k (pre & post & E & Hk); [reflexivity|]. cbn [length load].
  assert (Hc : put_bytes um D (Z.of_nat k) = Some c).
  { unfold put_bytes. rewrite E. rewrite !zlen_app, zlen_cons. pose proof (zlen_nonneg l). pose proof (zlen_nonneg post). unfold zlen at 1. rewrite Hk.
    replace ((0 <=? Z.of_nat k) && _) with true by lia. rewrite Nat2Z.id.
    rewrite nth_error_app2 by lia. rewrite Hk, Nat.sub_diag. reflexivity. }
  rewrite Hc. replace (Z.of_nat k + 1) with (Z.of_nat (S k)) by lia.
  rewrite (IH (S k)); [reflexivity|]. exists (pre ++ [c]), post. split; [rewrite E, <- app_assoc; reflexivity|]. rewrite app_length. cbn. lia.
Qed.

Lemma fread_rows rows tail w chunk um : 0 < w -> 0 < chunk -> Forall (fun v => length v = Z.to_nat w) rows -> zlen tail < w ->
  let m := Z.min chunk (zlen rows) in let part := firstn (Z.to_nat m) rows in
  exists got rest eof, fread (concat rows ++ tail) w chunk = (got, rest, eof) /\
    zlen got / w = m /\ zlen got <= w * chunk /\ load (put_bytes um got) 0 (length (concat part)) = Some (concat part) /\ zlen part = m /\
    eof = (zlen rows <? chunk) /\ (eof = false -> rest = concat (skipn (Z.to_nat m) rows) ++ tail).
Proof.
  intros Hw Hc HF Ht m part. pose proof (zlen_nonneg rows) as Hz. pose proof (zlen_nonneg tail) as Hzt.
  assert (HFp : Forall (fun v => length v = Z.to_nat w) part) by (rewrite <- (firstn_skipn (Z.to_nat m) rows) in HF; apply Forall_app in HF; apply HF).
  assert (Hpl : zlen part = m) by (unfold part, zlen, m in *; rewrite firstn_length; unfold zlen; lia).
  pose proof (zlen_concat_widths w part ltac:(lia) HFp) as Hcp. pose proof (zlen_concat_widths w rows ltac:(lia) HF) as Hcr.
  set (Y := concat (skipn (Z.to_nat m) rows) ++ tail).
  assert (Ein : concat rows ++ tail = concat part ++ Y) by (unfold Y, part; rewrite app_assoc, <- concat_app, firstn_skipn; reflexivity).
  assert (Hin : zlen (concat rows ++ tail) = zlen rows * w + zlen tail) by (rewrite zlen_app, Hcr; reflexivity).
  unfold fread. eexists _, _, _. split; [reflexivity|]. set (k := Z.to_nat (w * chunk)).
  assert (Hg : zlen (firstn k (concat rows ++ tail)) = Z.min (w * chunk) (zlen rows * w + zlen tail)) by (rewrite <- Hin; unfold zlen, k; rewrite firstn_length; nia).
  assert (Hkz : Z.of_nat k = w * chunk) by (unfold k; nia). rewrite Hpl in Hcp.
  assert (Hmc : m * w <= w * chunk) by (assert (0 <= m <= chunk) by lia; nia).
  assert (Hk : (length (concat part) <= k)%nat) by (unfold zlen in Hcp; lia).
  rewrite Hg. split.
  { destruct (Z_le_dec chunk (zlen rows)) as [H|H].
    - replace (Z.min (w * chunk) _) with (chunk * w) by nia. rewrite Z.div_mul by lia. unfold m. lia.
    - replace (Z.min (w * chunk) _) with (zlen rows * w + zlen tail) by nia. replace m with (zlen rows) by (unfold m; lia). symmetry. apply (Z.div_unique _ _ _ (zlen tail)); lia. }
  split; [lia|]. split.
  { change 0 with (Z.of_nat 0). apply load_put. exists [], (firstn (k - length (concat part)) Y). split; [|reflexivity].
    rewrite Ein, firstn_app, firstn_all2 by exact Hk. reflexivity. }
  split; [exact Hpl|]. assert (He : (length (concat rows ++ tail) <? k)%nat = (zlen rows <? chunk)).
  { unfold zlen in Hin at 1. destruct (zlen rows <? chunk) eqn:E1; nia. }
  split; [exact He|]. rewrite He. intros H. assert (Hm2 : m = chunk) by lia. rewrite Hm2 in Hcp. unfold zlen in Hcp.
  rewrite Ein, skipn_app. replace (k - length (concat part))%nat with 0%nat by nia. rewrite skipn_all2 by nia. reflexivity.
Qed.

Section Create.
Variables (e : env) (base dt : bytes) (nmemb : Z).
Let isz := itemsize (e_me e) dt.
Let w := isz * nmemb.
Hypothesis Hbn : block_name base.
Hypothesis Hty : header_type dt.
Hypothesis Hnm31 : 0 < nmemb < 2 ^ 31.
Hypothesis Hwc : w <= e_chunk e.
Hypothesis Hw31 : w < 2 ^ 31.
Hypothesis Hdt : dt_ok (e_me e) dt.
Notation inv := (hinv e base dt nmemb w).
Variables (rows : list bytes) (tail : bytes) (bs : Z).
Let n := zlen rows.
Let B := 2 ^ 64 - 1.
Hypothesis HF : Forall (fun v => length v = Z.to_nat w) rows.
Hypothesis Htl : zlen tail < w.
Hypothesis Hbs : w <= bs.
Hypothesis Hsm : n * nmemb < 2 ^ 63.

Lemma w_pos0 : 0 < w.
Proof. destruct Hdt. unfold w, isz. nia. Qed.

Lemma create_rows : forall fuel t f b um p i, 0 <= i <= n -> n - i + 2 <= Z.of_nat fuel -> inv t f (set_bdirty (resize b n) true) -> t_sizes t = [n] ->
  filled t rows i -> sums_ok f base [n] (b_fchecksum b) -> (0 < i -> b_dirty b = true) ->
  exists t' f' b', create_loop e f (resize b B) um bs w (bs / w) (concat (skipn (Z.to_nat i) rows) ++ tail) false p i fuel = Ret (f', resize b' B, n) /\
    inv t' f' (set_bdirty (resize b' n) true) /\ t_sizes t' = [n] /\ filled t' rows n /\ sums_ok f' base [n] (b_fchecksum b') /\ frames base f f' /\
    (0 < n -> b_dirty b' = true).
Proof.
  pose proof w_pos0 as Hw. assert (Hch : 0 < bs / w) by (apply Z.div_str_pos; lia). assert (Hchb : w * (bs / w) <= bs) by (apply Z.mul_div_le; lia).
  induction fuel as [|k IH]; intros t f b um p i Hi Hfu I Ht Hfi Hso Hdi; [lia|]. cbn [create_loop].
  set (R := skipn (Z.to_nat i) rows). assert (HR : zlen R = n - i) by (unfold R, n, zlen in *; rewrite skipn_length; lia).
  assert (HFR : Forall (fun v => length v = Z.to_nat w) R) by (rewrite <- (firstn_skipn (Z.to_nat i) rows) in HF; apply Forall_app in HF; apply HF).
  destruct (fread_rows R tail w (bs / w) um Hw Hch HFR Htl) as (got & rest & eof & Efr & Edv & Hgl & Hld & Hpl & Heo & Hre).
  rewrite Efr. replace (bs <? zlen got) with false by lia. rewrite Edv. set (m := Z.min (bs / w) (zlen R)) in *. set (part := firstn (Z.to_nat m) R) in *.
  destruct (hinv_size _ _ _ _ _ _ _ _ I) as (_ & Edt & Enm & _). cbn [set_bdirty resize b_dtype b_nmemb] in Edt, Enm.
  change (b_dtype (resize b B)) with (b_dtype b). change (b_nmemb (resize b B)) with (b_nmemb b).
  rewrite chunk_array_init by (rewrite Edt; exact Hdt). cbn [bind]. set (a := chunk_array (e_me e) b m).
  assert (Hn63 : n < 2 ^ 63) by (unfold n; pose proof (zlen_nonneg rows); nia).
  rewrite resize_seek by (unfold B; lia). cbn [bind].
  assert (Has : a_size a = m * nmemb) by (unfold a; cbn [chunk_array a_size]; rewrite Enm; reflexivity).
  assert (Hm : 0 <= m <= n - i) by lia. assert (Hts : t_size t = n) by (unfold t_size; rewrite Ht; cbn; lia).
  destruct (Z.eq_dec m 0) as [H0|H0].
  - (* nothing left *)
    assert (i = n) by lia. unfold big_block_write, big_block_write_fuel at 1. replace (a_size a =? 0) with true by lia. cbn [bind].
    rewrite Heo. replace (zlen R <? bs / w) with true by lia. destruct k as [|k]; [lia|]. cbn [create_loop].
    exists t, f, b. split; [f_equal; f_equal; lia|]. split; [exact I|]. split; [exact Ht|]. subst i. split; [exact Hfi|]. split; [exact Hso|]. split; [apply frames_refl|exact Hdi].
  - assert (Hne : part <> []) by (intros X; rewrite X in Hpl; cbn in Hpl; lia).
    assert (HFp : Forall (fun v => length v = Z.to_nat w) part) by (rewrite <- (firstn_skipn (Z.to_nat m) R) in HFR; apply Forall_app in HFR; apply HFR).
    destruct (write_chunk e base dt nmemb Hbn Hty Hnm31 Hwc Hw31 Hdt t f _ (mkPtr 0 0 0) i part (put_bytes um got) I Hne HFp ltac:(lia) ltac:(lia) ltac:(lia) Hld)
      as (q & f1 & b1 & p1 & m1 & Es & Ew & I1 & Fr1 & So1).
    change (set_bdirty (resize b n) true) with (resize (set_bdirty b true) n) in Es. rewrite resize_seek in Es by lia. injection Es as <-.
    rewrite Hpl in *. change (chunk_array (e_me e) (set_bdirty (resize b n) true) m) with a in Ew. rewrite write_dirty in Ew by nia.
    assert (Hfel : felsize e b = w) by (unfold felsize, row_nmemb; rewrite Edt, Enm; replace (nmemb =? 0) with false by lia; reflexivity).
    rewrite (write_resize e f b i a (put_bytes um got) B n) by (rewrite ?Has, ?Enm, ?Hfel, ?Z.div_mul by lia; unfold B; lia).
    rewrite Ew. cbn [bind grown].
    pose proof (write_shape e f (resize b n) _ a _ _ _ _ _ _ ltac:(nia) Ew) as Hb1.
    assert (I1' : inv (with_rows t i part) f1 (set_bdirty (resize b1 n) true)) by (rewrite Hb1 in I1 |- *; exact I1).
    assert (Hd1 : b_dirty b1 = true) by (rewrite Hb1; reflexivity).
    assert (Hfi' : filled (with_rows t i part) rows (i + m)).
    { pose proof (filled_more e dt nmemb (fun _ => (0, um)) t rows i m ltac:(unfold n in *; lia) ltac:(lia) Hfi) as X. fold R part in X. unfold n in *. replace (Z.min (i + m) (zlen rows)) with (i + m) in X by lia. exact X. }
    assert (So : sums_ok f1 base [n] (b_fchecksum b1)).
    { rewrite Ht in So1. apply So1; [|exact Hso]. intros z Hz. rewrite (Hfi z) by lia. replace (z <? i) with false by lia. reflexivity. }
    destruct eof.
    + destruct k as [|k]; [lia|]. cbn [create_loop]. assert (i + m = n) by lia.
      exists (with_rows t i part), f1, b1. split; [f_equal; f_equal; lia|]. split; [exact I1'|]. split; [exact Ht|]. split; [rewrite <- H; exact Hfi'|]. auto.
    + rewrite Hre by reflexivity. unfold R. rewrite <- skipn_add. replace (Z.to_nat i + Z.to_nat m)%nat with (Z.to_nat (i + m)) by lia.
      destruct (IH (with_rows t i part) f1 b1 m1 p1 (i + m) ltac:(lia) ltac:(lia) I1' Ht Hfi' So ltac:(auto)) as (t2 & f2 & b2 & E2 & I2 & T2 & F2 & S2 & Fr2 & D2).
      exists t2, f2, b2. split; [exact E2|]. split; [exact I2|]. split; [exact T2|]. split; [exact F2|]. split; [exact S2|]. split; [eapply frames_trans; eauto|exact D2].
Qed.
End Create.

(* ------------------------------------------------------------------ the place of the block *)
Lemma join_under p s : p <> [] -> prefix_of (resolve p) (resolve (path_join p s)).
Proof. intros H. rewrite resolve_join_gen. destruct p; [contradiction|]. apply prefix_app. Qed.

Lemma prepare e f path blk d nmemb : makeable e f path blk d nmemb -> let base := path_join path blk in
  exists f1, big_file_create f path = (f1, Some path) /\ big_file_open f1 path = Some path /\ way_made f1 (resolve path) /\ creatable f1 base /\ fs_get f1 (attr1_path base) = None /\
    only_new_dirs f f1 (resolve path).
Proof.
  intros [] base. destruct mk_path as [Hne Hl]. destruct (create_file_spec f path Hl Hne mk_way) as (f1 & E & M & [N1 N2] & _ & O).
  exists f1. split; [exact E|]. split; [exact O|]. split; [exact M|]. fold base in mk_free, mk_attr1. pose proof (join_under path blk Hne) as Hu. fold base in Hu.
  assert (Hin : forall p, in_block base p -> ~ prefix_of p (resolve path)).
  { intros p Hp X. destruct (in_block_app base p Hp) as (c & ->). apply (not_longer (resolve base) c). eapply prefix_trans; eauto. }
  split; [split|split].
  - intros q c Hq Hc. destruct (fs_get f q) as [n|] eqn:Eq.
    + rewrite (N1 _ _ Eq) in Hc. injection Hc as ->. exact (proj1 mk_free q c Hq Eq).
    + destruct (N2 _ _ Eq Hc) as [X _]. discriminate X.
  - intros p Hp Hc. destruct (fs_get f p) as [n|] eqn:Eq.
    + rewrite (N1 _ _ Eq) in Hc. injection Hc as ->. exact (proj2 mk_free p Hp Eq).
    + destruct (N2 _ _ Eq Hc) as [_ X]. exact (Hin p (or_introl Hp) X).
  - destruct (fs_get f1 (attr1_path base)) as [n|] eqn:Eq; [|reflexivity]. destruct (N2 _ _ mk_attr1 Eq) as [_ X]. destruct (Hin _ (or_intror eq_refl) X).
  - split; assumption.
Qed.

Lemma block_place f bf nm : let base := path_join bf nm in block_name base -> way_made f (resolve bf) -> creatable f base -> fs_get f (attr1_path base) = None ->
  exists f1, mksubdir_r f bf nm = (0, f1) /\ block_dir f1 base /\ fs_get f1 (attr1_path base) = None /\ only_new_dirs f f1 (resolve base).
Proof.
  intros base HB Hmade [W B] Ha1. pose proof HB as (B1 & B2 & B3). pose proof (join_len bf nm) as Hjl. fold base in Hjl.
  assert (Hne : base <> []) by (intros X; rewrite X in B1; discriminate B1).
  destruct (mksubdir_succeeds f bf nm) as (f1 & E1 & M1); [lia|exact Hne|exact Hmade|exact W|].
  destruct (mksubdir_new f bf nm 0 f1 ltac:(lia) E1) as [N1 _]. fold base in M1, N1. exists f1. split; [exact E1|].
  assert (Hown : forall p, in_block base p -> exists c, p = resolve base ++ [c]) by (intros p Hp; apply in_block_app; exact Hp).
  assert (Hnew : forall p, own_file base p -> fs_get f1 p <> Some Dir).
  { intros p Hp X. destruct (Hown p (or_introl Hp)) as (c & Ep). destruct (fs_get f p) as [n|] eqn:E.
    - rewrite (proj1 N1 _ _ E) in X. injection X as ->. exact (B p Hp E).
    - destruct (proj2 N1 _ _ E X) as [_ Y]. rewrite Ep in Y. exact (not_longer _ _ Y). }
  split; [split; [apply M1, prefix_refl|]; split; [apply Hnew; left; auto|]; split; [apply Hnew; right; left; auto|]; intros i Hi; apply Hnew; right; right; eauto|].
  split; [|exact N1].
  destruct (fs_get f1 (attr1_path base)) as [n|] eqn:E; [|reflexivity]. destruct (proj2 N1 _ _ Ha1 E) as [_ Y].
  destruct (Hown _ (or_intror eq_refl)) as (c & Ep). rewrite Ep in Y. destruct (not_longer _ _ Y).
Qed.

Lemma close_resize e f b n B : big_block_close e f (set_rows (resize b B) n) = big_block_close e f (resize b n).
Proof.
  unfold big_block_close, big_block_flush. cbn [set_rows resize b_dirty b_base].
  change (header_image (set_rows (resize b B) n)) with (header_image (resize b n)).
  destruct (b_dirty b); [destruct (fopen_w f (header_path (b_base b))) as [g|]; [destruct (header_image (resize b n)) as [img|u|]; cbn [bind]; try reflexivity|reflexivity]|cbn [bind]];
  change (negb (0 =? 0)) with false; cbv iota; cbn [set_rows resize set_bdirty b_attrset b_base]; destruct (as_dirty (b_attrset b)); try reflexivity;
  match goal with |- context [fopen_w ?x (attr2_path (b_base b))] => destruct (fopen_w x (attr2_path (b_base b))) end; try reflexivity;
  destruct (attr_lines (e_fg e) (e_me e) (b_attrset b) (as_list (b_attrset b))) as [[img2 s2]|u|]; reflexivity.
Qed.

Lemma own_shorter bf nm q : bf <> [] -> own_file (path_join bf nm) q -> q <> resolve bf.
Proof.
  intros Hne Hq X. destruct (in_block_app _ _ (or_introl Hq)) as (c & E). pose proof (join_under bf nm Hne) as [r Hr]. rewrite Hr in E. subst q.
  apply (f_equal (@length bytes)) in E. rewrite !app_length in E. cbn in E. lia.
Qed.

Lemma has_of_inv e f path blk dt nmemb t b rows : let base := path_join path blk in let w := itemsize (e_me e) dt * nmemb in
  block_name base -> header_type dt -> 0 < nmemb < 2 ^ 31 -> w <= e_chunk e -> w < 2 ^ 31 -> dt_ok (e_me e) dt ->
  hinv e base dt nmemb w t f b -> b_dirty b = false -> big_file_open f path = Some path -> shows_all w t rows -> zlen rows * nmemb < 2 ^ 63 ->
  sums_ok f base (t_sizes t) (b_fchecksum b) -> block_has e f path blk dt nmemb (t_sizes t) rows.
Proof.
  intros base w Hbn Hty Hnm Hwc Hw31 Hdt I Hd Ho Hsh Hsm Hso. split; [exact Ho|].
  destruct (open_clean e base dt nmemb w t f b Hbn Hty ltac:(lia) I Hd) as (b' & E & I' & S). destruct (hinv_size _ _ _ _ _ _ _ _ I') as (Es & Ed & En & HL).
  destruct (read_all e base dt nmemb Hbn Hty Hnm Hwc Hw31 Hdt t f b' rows I' Hsh Hsm) as (m & Er & Hm).
  exists b', (chunk_array (e_me e) b' (zlen rows)), m. split; [exact E|]. split; [exact Ed|]. split; [exact En|]. split; [rewrite Es; symmetry; apply Hsh|]. split; [exact HL|].
  split; [exact Er|]. split; [exact Ed|]. split; [cbn [chunk_array a_dims]; rewrite En; reflexivity|]. split; [exact Hm|]. apply S. exact Hso.
Qed.

Lemma create_spec_whole e f path blk d nmemb rows tail bs junk fuel : let base := path_join path blk in
  let dt := dtype_normalize (e_me e) d in let w := itemsize (e_me e) dt * nmemb in
  makeable e f path blk d nmemb -> Forall (fun v => length v = Z.to_nat w) rows -> zlen tail < w -> w <= bs -> zlen rows * nmemb < 2 ^ 63 -> rows <> [] ->
  zlen rows + 2 <= Z.of_nat fuel ->
  exists f', bigfile_create e f path blk d nmemb bs junk (concat rows ++ tail) fuel = Ret (0, f') /\
    block_has e f' path blk dt nmemb [zlen rows] rows /\ (forall q x, ~ own_file base q -> fs_get f q = Some x -> fs_get f' q = Some x).
Proof.
  intros base dt w Hmk HF Htl Hbs Hsm Hne Hfu. destruct (prepare _ _ _ _ _ _ Hmk) as (f1 & E1 & O1 & M1 & C1 & A1 & N1). fold base in C1, A1.
  destruct Hmk. fold base in mk_name. fold dt in mk_type, mk_dt, mk_chunk, mk_width. fold w in mk_chunk, mk_width.
  destruct (block_place f1 path blk mk_name M1 C1 A1) as (f2 & E2 & D2 & A2 & N2). fold base in D2, A2, N2.
  set (n := zlen rows). assert (Hn : 0 < n) by (unfold n; destruct rows; [congruence|rewrite zlen_cons; pose proof (zlen_nonneg rows); lia]).
  assert (Hi : 0 < itemsize (e_me e) dt) by apply mk_dt. assert (Hw : 0 < w) by (unfold w; nia).
  destruct (create_huge e f2 base d nmemb n mk_name D2 A2 ltac:(lia) mk_dt ltac:(unfold n in *; nia)) as (f3 & b3 & E3 & I3 & S3 & _). fold dt w in I3.
  unfold bigfile_create. rewrite E1. unfold big_file_create_block. rewrite E2. change (0 =? 0) with true. cbv iota. fold base. rewrite E3. cbn [bind].
  destruct (hinv_size _ _ _ _ _ _ _ _ I3) as (_ & Ed & En & _). cbn [set_bdirty resize b_dtype b_nmemb] in Ed, En.
  change (b_nmemb (resize b3 (2 ^ 64 - 1))) with (b_nmemb b3). change (b_dtype (resize b3 (2 ^ 64 - 1))) with (b_dtype b3). rewrite Ed, En, (Z.mul_comm nmemb). fold w.
  rewrite u64_id by lia. replace (w =? 0) with false by lia.
  pose proof (create_rows e base dt nmemb mk_name mk_type mk_items mk_chunk mk_width mk_dt rows tail bs HF Htl Hbs Hsm fuel (new_table [n]) f3 b3 junk (mkPtr 0 0 0) 0
    ltac:(fold n; lia) ltac:(lia) I3 eq_refl ltac:(intros r Hr; cbn [new_table t_row]; replace (r <? 0) with false by lia; reflexivity) S3 ltac:(lia)) as HH.
  fold w n in HH. change (Z.to_nat 0) with 0%nat in HH. cbn [skipn] in HH. destruct HH as (t4 & f4 & b4 & E4 & I4 & T4 & F4 & S4 & Fr4 & D4).
  rewrite E4. cbn [bind]. rewrite close_resize.
  assert (Eb : set_bdirty (resize b4 n) true = resize b4 n) by (unfold set_bdirty, resize; cbn; rewrite (D4 Hn); reflexivity). rewrite Eb in I4.
  destruct (hist_flush e base dt nmemb w t4 f4 _ I4) as (f5 & E5 & I5 & S5 & _).
  unfold big_block_close. rewrite E5. cbn [bind]. exists f5. split; [reflexivity|].
  assert (Fr5 : frames base f4 f5) by (pose proof (flush_frames e f4 _ 0 f5 _ E5) as [X _]; exact X || (rewrite (hv_base _ _ _ _ _ _ _ _ I4) in X; exact X)).
  pose proof (create_frames _ _ _ _ _ _ _ _ _ (proj1 (proj2 mk_name)) E3) as Fr3.
  assert (Fr : forall q x, ~ own_file base q -> fs_get f1 q = Some x -> fs_get f5 q = Some x).
  { intros q x Hq Hx. rewrite Fr5, Fr4, Fr3 by exact Hq. apply N2. exact Hx. }
  split; [|intros q x Hq Hx; apply Fr; [exact Hq|]; apply N1; exact Hx].
  rewrite <- T4. apply (has_of_inv e f5 path blk dt nmemb t4 _ rows mk_name mk_type mk_items mk_chunk mk_width mk_dt I5 eq_refl); auto.
  - unfold big_file_open in *. destruct path as [|c p]; [destruct mk_path; contradiction|].
    rewrite (Fr _ Dir); [rewrite (M1 _ (prefix_refl _)) in O1; exact O1| |apply M1, prefix_refl].
    intros X. apply (own_shorter (c :: p) blk _ ltac:(discriminate) X). reflexivity.
  - split; [|split].
    + unfold t_size. rewrite T4. cbn. unfold n. lia.
    + exact HF.
    + intros r v Hr. left. rewrite (F4 (Z.of_nat r)) by lia. rewrite Nat2Z.id.
      assert ((r < length rows)%nat) by (apply nth_error_Some; congruence). unfold n, zlen. replace (Z.of_nat r <? Z.of_nat (length rows)) with true by lia. exact Hr.
  - rewrite T4. cbn [set_bdirty resize b_fchecksum] in *. rewrite T4 in S5. apply S5. exact S4.
Qed.

(* ------------------------------------------------------------------ no progress *)
Lemma fread_none input w : fread input w 0 = ([], input, false).
Proof. unfold fread. rewrite Z.mul_0_r. reflexivity. Qed.
Lemma stuck e b bs w input : dt_ok (e_me e) (b_dtype b) -> 0 < w -> 0 <= bs ->
  forall fuel f um p, create_loop e f (resize b (2 ^ 64 - 1)) um bs w 0 input false p 0 fuel = Diverge.
Proof.
  intros Hdt Hw Hbs. induction fuel as [|k IH]; intros f um p; [reflexivity|]. cbn [create_loop]. rewrite fread_none. change (zlen (@nil byte)) with 0.
  replace (bs <? 0) with false by lia. rewrite Z.div_0_l by lia.
  change (b_dtype (resize b (2 ^ 64 - 1))) with (b_dtype b). change (b_nmemb (resize b (2 ^ 64 - 1))) with (b_nmemb b).
  rewrite chunk_array_init by exact Hdt. cbn [bind]. rewrite resize_seek by lia. cbn [bind].
  unfold big_block_write, big_block_write_fuel at 1. change (a_size (chunk_array (e_me e) b 0) =? 0) with true. cbn [bind]. apply IH.
Qed.

Lemma create_begins e f path blk d nmemb : let dt := dtype_normalize (e_me e) d in let w := itemsize (e_me e) dt * nmemb in
  makeable e f path blk d nmemb ->
  exists f' b, b_dtype b = dt /\ b_dirty b = false /\ as_dirty (b_attrset b) = false /\ forall bs junk input fuel, bigfile_create e f path blk d nmemb bs junk input fuel =
    ('(f, b, offset) <- create_loop e f' (resize b (2 ^ 64 - 1)) junk bs w (bs / w) input false (mkPtr 0 0 0) 0 fuel ;;
     '(_, f) <- big_block_close e f (set_rows b offset) ;;
     Ret (0, f)).
Proof.
  intros dt w Hmk. destruct (prepare _ _ _ _ _ _ Hmk) as (f1 & E1 & O1 & M1 & C1 & A1 & N1). set (base := path_join path blk) in *.
  destruct Hmk. fold base in mk_name. fold dt in mk_type, mk_dt, mk_chunk, mk_width. fold w in mk_chunk, mk_width.
  destruct (block_place f1 path blk mk_name M1 C1 A1) as (f2 & E2 & D2 & A2 & N2). fold base in D2, A2, N2.
  assert (Hi : 0 < itemsize (e_me e) dt) by apply mk_dt. assert (Hw : 0 < w) by (unfold w; nia).
  destruct (create_huge e f2 base d nmemb 0 mk_name D2 A2 ltac:(lia) mk_dt ltac:(lia)) as (f3 & b3 & E3 & I3 & S3 & Hcl). fold dt w in I3.
  exists f3, b3. destruct (hinv_size _ _ _ _ _ _ _ _ I3) as (_ & Ed & En & _). cbn [set_bdirty resize b_dtype b_nmemb] in Ed, En.
  split; [exact Ed|]. split; [exact Hcl|]. split; [exact (hv_clean _ _ _ _ _ _ _ _ I3)|]. intros bs junk input fuel.
  unfold bigfile_create. rewrite E1. unfold big_file_create_block. rewrite E2. change (0 =? 0) with true. cbv iota. fold base. rewrite E3. cbn [bind].
  change (b_nmemb (resize b3 (2 ^ 64 - 1))) with (b_nmemb b3). change (b_dtype (resize b3 (2 ^ 64 - 1))) with (b_dtype b3). rewrite Ed, En, (Z.mul_comm nmemb). fold w.
  rewrite u64_id by lia. replace (w =? 0) with false by lia. reflexivity.
Qed.

Lemma create_stuck e f path blk d nmemb input bs junk fuel :
  makeable e f path blk d nmemb -> 0 <= bs < itemsize (e_me e) (dtype_normalize (e_me e) d) * nmemb ->
  bigfile_create e f path blk d nmemb bs junk input fuel = Diverge.
Proof.
  intros Hmk Hb. destruct (create_begins e f path blk d nmemb Hmk) as (f' & b & Ed & _ & _ & E). rewrite E. rewrite Z.div_small by lia.
  rewrite stuck; [reflexivity| |lia|lia]. rewrite Ed. apply Hmk.
Qed.

Lemma create_short e f path blk d nmemb : let w := itemsize (e_me e) (dtype_normalize (e_me e) d) * nmemb in
  makeable e f path blk d nmemb -> exists f', forall bs junk input fuel, w <= bs -> zlen input < w -> (2 <= fuel)%nat ->
  bigfile_create e f path blk d nmemb bs junk input fuel = Ret (0, f').
Proof.
  intros w Hmk. assert (Hw : 0 < w) by (destruct Hmk; destruct mk_dt; unfold w; nia).
  destruct (create_begins e f path blk d nmemb Hmk) as (f' & b & Ed & Hcl & Hca & E). fold w in E.
  exists f'. intros bs junk input fuel Hb Hi Hf.
  assert (Hch : 0 < bs / w) by (apply Z.div_str_pos; lia). assert (Hchb : w * (bs / w) <= bs) by (apply Z.mul_div_le; lia). rewrite E. clear E. destruct fuel as [|[|k]]; try lia. cbn [create_loop].
  destruct (fread_rows [] input w (bs / w) junk Hw Hch ltac:(constructor) Hi) as (got & rest & eof & Efr & Edv & Hgl & _ & _ & Heo & _). cbn [concat app] in Efr.
  change (zlen (@nil bytes)) with 0 in *. replace (Z.min (bs / w) 0) with 0 in Edv by lia. rewrite Efr, Edv. replace (bs <? zlen got) with false by lia.
  change (b_dtype (resize b (2 ^ 64 - 1))) with (b_dtype b). change (b_nmemb (resize b (2 ^ 64 - 1))) with (b_nmemb b).
  rewrite chunk_array_init by (rewrite Ed; apply Hmk). cbn [bind]. rewrite resize_seek by lia. cbn [bind].
  unfold big_block_write, big_block_write_fuel at 1. change (a_size (chunk_array (e_me e) b 0) =? 0) with true. cbn [bind].
  rewrite Heo. replace (0 <? bs / w) with true by lia. cbn [bind]. change (0 + 0) with 0. rewrite close_resize.
  unfold big_block_close. rewrite (clean_flush e f' (resize b 0) Hcl Hca). reflexivity.
Qed.
