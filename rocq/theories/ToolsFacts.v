(* Proofs about text of elements, bigfile-cat and bigfile-set-attr. *)
From Coq.Strings Require Import Byte String.
From Coq Require Import List ZArith Lia Bool ZifyBool ZifyNat.
From Verif Require Import Base BaseFacts Dtype Cast CastSpec CastFacts Array FS Fmt Attr Block File Spec AttrSpec OpenSpec SessSpec HistSpec FileSpec PySpec Util UtilSpec Tools ToolsSpec
  FSFacts DtypeFacts ArrayFacts ConvFacts WriteFacts AttrFacts TextFacts HeaderFacts HistFacts StepFacts UtilFacts CopyFacts.
Import ListNotations.
Open Scope Z_scope.
Local Open Scope out_scope.
Ltac Zify.zify_post_hook ::= Z.div_mod_to_equations.

(* ------------------------------------------------------------------ numerals *)
Lemma digit_xval c : decimal_digit c -> xval c = Some (b2z c - 48).
Proof. unfold decimal_digit. destruct c; vm_compute; intros [H1 H2]; try reflexivity; try (exfalso; apply H1; reflexivity); exfalso; apply H2; reflexivity. Qed.
Lemma xval_dec c d : xval c = Some d -> 0 <= d < 10 -> decimal_digit c /\ b2z c - 48 = d.
Proof. unfold decimal_digit. destruct c; vm_compute; intros H; inversion H; subst; intros [H1 H2]; try discriminate H2; repeat split; try discriminate. Qed.
Lemma digits_all10 l : Forall decimal_digit l <-> all_dig 10 l.
Proof.
  unfold all_dig. split; intros H; (eapply Forall_impl; [|exact H]); cbv beta; intros c Hc.
  - pose proof (digit_xval c Hc) as X. exists (b2z c - 48). split; [unfold decimal_digit in Hc; lia|exact X].
  - destruct Hc as (d & Hd & X). apply (xval_dec c d X Hd).
Qed.
Lemma scan_fold : forall l acc n w, Forall decimal_digit l -> (length l <= w)%nat ->
  scan_digits 10 acc n w l = (fold_left (fun a c => 10 * a + (b2z c - 48)) l acc, (n + length l)%nat, []).
Proof.
  induction l as [|c l IH]; intros acc n w H Hw.
  - destruct w; cbn; rewrite Nat.add_0_r; reflexivity.
  - inversion H as [|? ? Hc Hl]; subst. destruct w as [|w]; [cbn in Hw; lia|]. cbn [scan_digits]. rewrite (digit_xval c Hc).
    replace (b2z c - 48 <? 10) with true by (unfold decimal_digit in Hc; lia). rewrite IH by (cbn in *; auto; lia). cbn [fold_left length]. f_equal. f_equal. lia.
Qed.
Lemma scan_number t z : number t z -> scan_dec t = Some (z, []).
Proof.
  intros (neg & ds & -> & Hn & Hd & ->). destruct ds as [|c ds]; [congruence|]. pose proof Hd as Hd'. inversion Hd' as [|? ? Hc _]; subst.
  pose proof (xval_char _ _ (digit_xval c Hc)) as (S1 & S2 & S3 & _).
  pose proof (scan_fold (c :: ds) 0 0 (length (c :: ds)) Hd (Nat.le_refl _)) as E. fold (decimal_value (c :: ds)) in E.
  unfold scan_dec. destruct neg; cbn [drop_space].
  - change (is_space "-") with false. cbv iota. change (Byte.eqb "-" "-") with true. cbv iota. rewrite E. cbn [length Nat.add]. reflexivity.
  - rewrite S1. cbv iota. rewrite S2, S3. rewrite E. cbn [length Nat.add]. reflexivity.
Qed.
Lemma last_digit : forall fuel z, 0 < z < 10 ^ Z.of_nat fuel -> last (digits_lsf 10 digit fuel z) x00 <> "0"%byte.
Proof.
  induction fuel as [|k IH]; intros z Hz; [change (10 ^ Z.of_nat 0) with 1 in Hz; lia|]. cbn [digits_lsf]. destruct (z / 10 =? 0) eqn:E.
  - cbn [last]. intros X. assert (Hm : 0 < z mod 10 < 10) by lia. apply (f_equal xval) in X. rewrite xval_digit in X by lia. change (xval "0") with (Some 0) in X. injection X as X. lia.
  - rewrite Nat2Z.inj_succ, Z.pow_succ_r in Hz by lia. specialize (IH (z / 10) ltac:(lia)).
    destruct (digits_lsf 10 digit k (z / 10)) as [|x l] eqn:El; [exfalso; revert El; apply digits_nonnil; destruct k; [cbn in Hz; lia|lia]|]. exact IH.
Qed.
Lemma hd_rev (l : bytes) : hd x00 (rev l) = last l x00.
Proof.
  induction l as [|x l IH] using rev_ind; [reflexivity|]. rewrite rev_app_distr. cbn [rev app hd]. rewrite last_last. reflexivity.
Qed.
Lemma unsigned_numeral z : 0 <= z < 10 ^ 64 -> print_unsigned z <> [] /\ Forall decimal_digit (print_unsigned z) /\ z = decimal_value (print_unsigned z) /\
  (hd x00 (print_unsigned z) = "0"%byte -> print_unsigned z = lit "0").
Proof.
  intros Hz. pose proof (print_unsigned_dig z ltac:(lia)) as Hd. pose proof (print_unsigned_nonnil z) as Hn. apply digits_all10 in Hd.
  split; [exact Hn|]. split; [exact Hd|]. split.
  - pose proof (scan_dec_unsigned z [] Hz I) as E. rewrite app_nil_r in E.
    assert (N : number (print_unsigned z) (decimal_value (print_unsigned z))) by (exists false, (print_unsigned z); auto).
    rewrite (scan_number _ _ N) in E. congruence.
  - destruct (Z.eq_dec z 0) as [->|H0]; [intros _; reflexivity|]. unfold print_unsigned. rewrite hd_rev. intros X. exfalso. revert X. apply last_digit. change (Z.of_nat 64) with 64. lia.
Qed.
Lemma print_numeral z : - 10 ^ 64 < z < 10 ^ 64 -> numeral (print_signed z) z.
Proof.
  intros Hz. unfold print_signed, numeral. destruct (z <? 0) eqn:E.
  - destruct (unsigned_numeral (- z) ltac:(lia)) as (A & B & C & D). exists (print_unsigned (- z)). split; [reflexivity|]. split; [exact A|]. split; [exact B|]. split; [lia|exact D].
  - destruct (unsigned_numeral z ltac:(lia)) as (A & B & C & D). exists (print_unsigned z). split; [reflexivity|]. split; [exact A|]. split; [exact B|]. split; [lia|exact D].
Qed.
Lemma numeral_number t z : numeral t z -> number t z.
Proof. intros (ds & -> & A & B & C & _). destruct (z <? 0) eqn:E; [exists true, ds|exists false, ds]; (split; [reflexivity|]; split; [exact A|]; split; [exact B|]; lia). Qed.

(* ------------------------------------------------------------------ one element *)
Lemma int_ordered d w s : int_type d w s -> ordered d.
Proof. intros H; inversion H; subst; eexists _, _; (split; [reflexivity|assumption]). Qed.
Lemma int_width me d w s : int_type d w s -> itemsize me d * 8 = w.
Proof. intros H; inversion H as [c Hc|c Hc|c Hc|c Hc|c Hc]; subst; destruct Hc as [-> | ->]; destruct me; reflexivity. Qed.
Lemma int_normal me d w s : int_type d w s -> dtype_normalize me d = d.
Proof. intros H; inversion H as [c Hc|c Hc|c Hc|c Hc|c Hc]; subst; destruct Hc as [-> | ->]; destruct me; reflexivity. Qed.
Lemma int_native me d w s : int_type (dtype_normalize me d) w s -> int_type (native_of me d) w s /\ suffix (native_of me d) = suffix (dtype_normalize me d) /\ dt_native me (native_of me d) = true.
Proof.
  unfold native_of. intros H. inversion H as [c Hc E|c Hc E|c Hc E|c Hc E|c Hc E]; subst; (split; [constructor; destruct me; auto|]); (split; [reflexivity|]); cbn [dt_native]; apply byte_eqb_refl.
Qed.
Lemma print_signed_pos z : 0 <= z -> print_signed z = print_unsigned z.
Proof. intros H. unfold print_signed. replace (z <? 0) with false by lia. reflexivity. Qed.
Lemma format_int fg me d w s l : int_type d w s -> dt_native me d = true -> Z.of_nat (length l) * 8 = w -> format_native fg me d l = Ret (print_signed (int_value d w s l)).
Proof.
  intros H Hn Hl. pose proof (int_ordered _ _ _ H) as Ho.
  assert (E : nat_val me l = elem_bits d l) by (rewrite <- (bits_native me d l Ho); unfold reorder; rewrite Hn; reflexivity).
  pose proof (bits_range d l Ho) as Hr.
  unfold format_native. inversion H as [c Hc|c Hc|c Hc|c Hc|c Hc]; subst d w s; cbn [suffix tl];
    repeat match goal with |- context [bytes_eqb ?a ?b] => let v := eval vm_compute in (bytes_eqb a b) in change (bytes_eqb a b) with v end; cbv iota; rewrite E; unfold int_value; cbn [andb];
    try reflexivity; rewrite print_signed_pos by lia; reflexivity.
Qed.
Lemma int_value_native me d w s v : int_type (dtype_normalize me d) w s -> int_value (native_of me d) w s (reorder me (native_of me d) (reorder me (dtype_normalize me d) v)) = int_value (dtype_normalize me d) w s v.
Proof.
  intros H. destruct (int_native me d w s H) as (H1 & _). unfold int_value. rewrite bits_reorder2; eauto using int_ordered.
Qed.
Lemma itemsize_native me d w s : int_type (dtype_normalize me d) w s -> itemsize me (native_of me d) = itemsize me d.
Proof.
  intros H. destruct (int_native me d w s H) as (H1 & _). rewrite <- (itemsize_normalize me d). pose proof (int_width me _ _ _ H). pose proof (int_width me _ _ _ H1). lia.
Qed.

Lemma format_elem fg me m x d w s v : int_type (dtype_normalize me d) w s -> load m x (Z.to_nat (itemsize me d)) = Some v ->
  exists m', dtype_format fg me m x d = Ret (print_signed (int_value (dtype_normalize me d) w s v), m') /\
    (forall y, ~ (x <= y < x + itemsize me d) -> m' y = m y) /\
    load m' x (Z.to_nat (itemsize me d)) = Some (reorder me (dtype_normalize me d) v).
Proof.
  intros H Hl. destruct (int_native me d w s H) as (H1 & Hsu & Hn1). pose proof (itemsize_native me d w s H) as Hi. pose proof (int_width me _ _ _ H) as Hw0. rewrite itemsize_normalize in Hw0.
  assert (Hw : 0 < itemsize me d <= 8) by (inversion H; subst w s; lia).
  pose proof (load_length _ _ _ _ Hl) as Hlv. set (nd := native_of me d) in *.
  assert (Hnn : dtype_normalize me nd = nd) by (eapply int_normal; eassumption).
  set (o := reorder me nd (reorder me (dtype_normalize me d) v)).
  destruct (simple_conv me (malloc_mem 0 128) 0 nd m x d 1 [v] [o]) as (dm & sm & E & A & _ & C & D); try lia; try reflexivity.
  - constructor; [exact Hlv|constructor].
  - rewrite Z.mul_1_l. cbn [concat]. rewrite app_nil_r. exact Hl.
  - intros y Hy. unfold malloc_mem. replace ((0 <=? y) && (y <? 0 + 128)) with true by lia. discriminate.
  - left. rewrite Hnn. symmetry. exact (eq_sym Hsu).
  - constructor; [|constructor]. rewrite Hnn. apply CastFacts.converts_same. exact Hsu.
  - unfold dtype_format. fold nd. rewrite E. cbn [bind]. replace (Z.min 128 (Z.max 0 (itemsize me nd))) with (1 * itemsize me nd) by lia. rewrite A. cbn [or_ub bind concat]. rewrite app_nil_r.
    assert (Hol : Z.of_nat (length o) * 8 = w) by (unfold o; rewrite !CastFacts.reorder_len, Hlv; lia).
    rewrite (format_int fg me nd w s o H1 Hn1 Hol). cbn [bind]. exists sm. split; [unfold o, nd; rewrite int_value_native by exact H; reflexivity|].
    unfold reorder. rewrite Z.mul_1_l in D. destruct (dt_native me (dtype_normalize me d)) eqn:En.
    + rewrite (C eq_refl). split; [reflexivity|exact Hl].
    + destruct (D eq_refl) as [D1 D2]. split; [intros y Hy; apply D2; exact Hy|]. cbn [map concat] in D1. rewrite app_nil_r in D1. exact D1.
Qed.

Lemma parse_int sc me d w s t z : int_type d w s -> suffix d <> lit "b1" -> dt_native me d = true -> number t z -> in_type w s z ->
  exists l, parse_native sc me d t = Ret (Some l) /\ Z.of_nat (length l) * 8 = w /\ int_value d w s l = z.
Proof.
  intros H Hb Hn Hnum Hz. pose proof (int_ordered _ _ _ H) as Ho. pose proof (scan_number t z Hnum) as E. unfold parse_native, scan_d, scan_u. rewrite E.
  inversion H as [c Hc|c Hc|c Hc|c Hc|c Hc]; subst d w s; cbn [suffix tl] in *; [| | | |exfalso; apply Hb; reflexivity];
    repeat match goal with |- context [bytes_eqb ?a ?b] => let v := eval vm_compute in (bytes_eqb a b) in change (bytes_eqb a b) with v end; cbv iota;
    unfold in_type in Hz; cbv iota in Hz; unfold scan_num; eexists; (split; [reflexivity|]); rewrite nat_enc_len; (split; [reflexivity|]).
  all: match goal with O : ordered ?d, N : dt_native ?me ?d = true |- int_value ?d _ _ (nat_enc ?me ?n ?x) = _ => pose proof (bits_enc me d n x O) as B; unfold reorder in B; rewrite N in B end; unfold int_value; rewrite B; clear B.
  - unfold sat_long. change (2 ^ (32 - 1)) with (2 ^ 31) in *. replace (2 ^ 63 <=? z) with false by lia. replace (z <? - 2 ^ 63) with false by lia. replace (s32 z) with z by (unfold s32; lia).
    change (256 ^ Z.of_nat 4) with (2 ^ 32). cbn [andb]. destruct (2 ^ 31 <=? z mod 2 ^ 32) eqn:Q; lia.
  - unfold sat_long. change (2 ^ (64 - 1)) with (2 ^ 63) in *. replace (2 ^ 63 <=? z) with false by lia. replace (z <? - 2 ^ 63) with false by lia.
    change (256 ^ Z.of_nat 8) with (2 ^ 64). cbn [andb]. destruct (2 ^ 63 <=? z mod 2 ^ 64) eqn:Q; lia.
  - unfold sat_ulong. replace ((2 ^ 64 <=? z) || (z <=? - 2 ^ 64)) with false by lia. replace (u32 (u64 z)) with z by (unfold u32, u64; lia).
    change (256 ^ Z.of_nat 4) with (2 ^ 32). cbn [andb]. apply Z.mod_small. exact Hz.
  - unfold sat_ulong. replace ((2 ^ 64 <=? z) || (z <=? - 2 ^ 64)) with false by lia. replace (u64 z) with z by (unfold u64; lia).
    change (256 ^ Z.of_nat 8) with (2 ^ 64). cbn [andb]. apply Z.mod_small. exact Hz.
Qed.

Lemma parse_elem sc me d w s t z m x : int_type (dtype_normalize me d) w s -> suffix (dtype_normalize me d) <> lit "b1" -> number t z -> in_type w s z ->
  (forall y, x <= y < x + itemsize me d -> m y <> None) ->
  exists m' v, dtype_parse sc me t d m x = Ret (0, m') /\ load m' x (Z.to_nat (itemsize me d)) = Some v /\ int_value (dtype_normalize me d) w s v = z /\
    (forall y, ~ (x <= y < x + itemsize me d) -> m' y = m y).
Proof.
  intros H Hb Hnum Hz Hm. destruct (int_native me d w s H) as (H1 & Hsu & Hn1). pose proof (itemsize_native me d w s H) as Hi. pose proof (int_width me _ _ _ H) as Hw0. rewrite itemsize_normalize in Hw0.
  assert (Hw : 0 < itemsize me d <= 8) by (inversion H; subst w s; lia). set (nd := native_of me d) in *.
  assert (Hnn : dtype_normalize me nd = nd) by (eapply int_normal; eassumption).
  destruct (parse_int sc me nd w s t z H1 ltac:(rewrite Hsu; exact Hb) Hn1 Hnum Hz) as (l & El & Hll & Hv).
  unfold dtype_parse. fold nd. rewrite El. cbn [bind].
  assert (Hst : exists cm, store (malloc_mem 0 128) 0 l = Some cm) by (apply store_some; intros k Hk; unfold malloc_mem; replace ((0 <=? 0 + Z.of_nat k) && (0 + Z.of_nat k <? 0 + 128)) with true by lia; discriminate).
  destruct Hst as (cm & Ec). rewrite Ec. cbn [or_ub bind]. set (o := reorder me (dtype_normalize me d) (reorder me nd l)).
  destruct (simple_conv me m x d cm 0 nd 1 [l] [o]) as (dm & sm & E & A & B & _); try lia; try reflexivity.
  - constructor; [lia|constructor].
  - rewrite Z.mul_1_l. cbn [concat]. rewrite app_nil_r. replace (Z.to_nat (itemsize me nd)) with (length l) by lia. eapply load_store_same; exact Ec.
  - intros y Hy. apply Hm. lia.
  - left. rewrite Hnn. exact (eq_sym Hsu).
  - constructor; [|constructor]. rewrite Hnn. apply CastFacts.converts_same. exact (eq_sym Hsu).
  - rewrite E. cbn [bind]. rewrite Z.mul_1_l in *. cbn [concat] in A. rewrite app_nil_r in A. exists dm, o. split; [reflexivity|]. split; [exact A|]. split; [|exact B].
    rewrite <- Hv. unfold o, int_value. rewrite bits_reorder2; eauto using int_ordered.
Qed.

(* ------------------------------------------------------------------ printed rows *)
Lemma until_clean l : Forall (fun c => c <> x00) l -> until_nul l = l.
Proof. induction 1 as [|c l Hc _ IH]; [reflexivity|]. unfold until_nul in *. cbn. destruct (Byte.eqb c x00) eqn:E; [apply byte_eqb_eq in E; contradiction|]. rewrite IH. reflexivity. Qed.
Lemma digit_nul c : decimal_digit c -> c <> x00.
Proof. intros H ->. unfold decimal_digit in H. vm_compute in H. destruct H as [H _]. apply H. reflexivity. Qed.
Lemma numeral_clean t z : numeral t z -> until_nul t = t.
Proof.
  intros (ds & -> & _ & H & _). apply until_clean. assert (F : Forall (fun c => c <> x00) ds) by (eapply Forall_impl; [|exact H]; apply digit_nul).
  destruct (z <? 0); [constructor; [discriminate|exact F]|exact F].
Qed.

Lemma int_small d w s z : int_type d w s -> in_type w s z -> - 10 ^ 64 < z < 10 ^ 64.
Proof.
  intros H Hz. assert (B : - 2 ^ 63 <= z < 2 ^ 64).
  { inversion H; subst w s; unfold in_type in Hz; cbv iota in Hz; [change (2 ^ (32 - 1)) with (2 ^ 31) in Hz|change (2 ^ (64 - 1)) with (2 ^ 63) in Hz| | |change (2 ^ (8 - 1)) with (2 ^ 7) in Hz]; lia. }
  assert (- 10 ^ 64 < - 2 ^ 63) by reflexivity. assert (2 ^ 64 < 10 ^ 64) by reflexivity. lia.
Qed.

Section Print.
Variables (e : env) (a : array) (d : bytes) (wd : Z) (sg : bool).
Let isz := itemsize (e_me e) d.
Hypothesis Ha : array_ok a.
Hypothesis Had : a_dtype a = d.
Hypothesis Hty : int_type d wd sg.
Hypothesis Hadr : forall k, 0 <= k < a_size a -> elem_addr a k = k * isz.

Lemma text_elems_ok : forall vs k m it, iter_at (e_me e) it a k -> 0 <= k -> k + zlen vs <= a_size a ->
  Forall (fun v => length v = Z.to_nat isz) vs -> load m (k * isz) (length (concat vs)) = Some (concat vs) ->
  exists t m' it', text_elems e m it (length vs) = Ret (t, m', it') /\ elems_text d wd sg vs t /\ iter_at (e_me e) it' a (k + zlen vs) /\
    forall y, (k + zlen vs) * isz <= y -> m' y = m y.
Proof.
  assert (Hi : isz * 8 = wd) by (eapply int_width; exact Hty). assert (Hip : 0 < isz) by (inversion Hty; subst; lia).
  induction vs as [|v vs IH]; intros k m it Hit Hk Hks HF Hl.
  - exists [], m, it. cbn [text_elems length]. split; [reflexivity|]. split; [constructor|]. cbn [zlen length]. change (zlen []) with 0. rewrite Z.add_0_r. auto.
  - pose proof (Forall_inv HF) as Hv. pose proof (Forall_inv_tail HF) as HF'. cbv beta in Hv. rewrite zlen_cons in *. pose proof (zlen_nonneg vs). cbn [concat] in Hl. rewrite app_length in Hl.
    apply load_split in Hl. destruct Hl as [Hl1 Hl2]. rewrite firstn_app, firstn_all, Nat.sub_diag, firstn_O, app_nil_r in Hl1. rewrite skipn_app, skipn_all, Nat.sub_diag in Hl2. cbn [skipn app] in Hl2.
    cbn [length text_elems]. rewrite (iter_at_ptr _ _ _ _ Ha Hit) by lia. rewrite Hadr by lia. rewrite (ia_arr _ _ _ _ Hit), Had.
    rewrite Hv in Hl1. unfold isz in Hl1 at 2. pose proof (int_normal (e_me e) _ _ _ Hty) as Hn.
    destruct (format_elem (e_fg e) (e_me e) m (k * isz) d wd sg v ltac:(rewrite Hn; exact Hty) Hl1) as (m1 & E1 & F1 & _). rewrite Hn in E1. fold isz in F1.
    rewrite E1. cbn [bind]. destruct (iter_advance_at _ _ _ _ Ha Hit) as (it1 & E2 & Hit1). rewrite E2. cbn [bind].
    assert (Hl2' : load m1 ((k + 1) * isz) (length (concat vs)) = Some (concat vs)).
    { rewrite <- Hl2. rewrite Hv. replace (k * isz + Z.of_nat (Z.to_nat isz)) with ((k + 1) * isz) by lia. apply load_ext. intros j Hj. apply F1. lia. }
    destruct (IH (k + 1) m1 it1 Hit1 ltac:(lia) ltac:(lia) HF' Hl2') as (t & m2 & it2 & E3 & T3 & I3 & F3). rewrite E3. cbn [bind].
    assert (Hz : in_type wd sg (int_value d wd sg v)) by (apply int_value_range; [exact Hty|rewrite Hv; f_equal; lia]).
    assert (Hnum : numeral (print_signed (int_value d wd sg v)) (int_value d wd sg v)).
    { apply print_numeral. eapply int_small; eassumption. }
    rewrite (numeral_clean _ _ Hnum). eexists _, m2, it2. split; [reflexivity|]. split; [constructor; [exact Hnum|exact T3]|]. rewrite Z.add_assoc. rewrite <- (Z.add_assoc k 1), (Z.add_comm 1), Z.add_assoc in I3, F3.
    replace (k + zlen vs + 1) with (k + 1 + zlen vs) in * by lia. split; [exact I3|]. intros y Hy. rewrite F3 by lia. apply F1. nia.
Qed.

Lemma text_rows_ok nmemb : 0 < nmemb -> forall rows k m it, iter_at (e_me e) it a k -> 0 <= k -> k + zlen rows * nmemb <= a_size a ->
  Forall (fun v => length v = Z.to_nat (isz * nmemb)) rows -> load m (k * isz) (length (concat rows)) = Some (concat rows) ->
  exists t, text_rows e m it (Z.to_nat nmemb) (length rows) = Ret t /\ rows_text d wd sg rows t.
Proof.
  assert (Hi : isz * 8 = wd) by (eapply int_width; exact Hty). assert (Hip : 0 < isz) by (inversion Hty; subst; lia).
  intros Hnm. induction rows as [|row rows IH]; intros k m it Hit Hk Hks HF Hl.
  - exists []. split; [reflexivity|constructor].
  - pose proof (Forall_inv HF) as Hv. pose proof (Forall_inv_tail HF) as HF'. cbv beta in Hv. rewrite zlen_cons in *. pose proof (zlen_nonneg rows). cbn [concat] in Hl. rewrite app_length in Hl.
    apply load_split in Hl. destruct Hl as [Hl1 Hl2]. rewrite firstn_app, firstn_all, Nat.sub_diag, firstn_O, app_nil_r in Hl1. rewrite skipn_app, skipn_all, Nat.sub_diag in Hl2. cbn [skipn app] in Hl2.
    set (vs := group (Z.to_nat isz) (Z.to_nat nmemb) row).
    assert (Hlr : length row = (Z.to_nat isz * Z.to_nat nmemb)%nat) by nia.
    assert (Hc : concat vs = row) by (apply concat_group; lia).
    assert (Hlv : length vs = Z.to_nat nmemb) by (unfold vs; apply group_length).
    assert (HFv : Forall (fun v => length v = Z.to_nat isz) vs) by (apply group_widths; exact Hlr).
    assert (Hzv : zlen vs = nmemb) by (unfold zlen; lia).
    destruct (text_elems_ok vs k m it Hit Hk ltac:(nia) HFv ltac:(rewrite Hc; exact Hl1)) as (t & m1 & it1 & E1 & T1 & I1 & F1). rewrite Hlv in E1. rewrite Hzv in I1, F1.
    cbn [length text_rows]. rewrite E1. cbn [bind].
    assert (Hl2' : load m1 ((k + nmemb) * isz) (length (concat rows)) = Some (concat rows)).
    { rewrite <- Hl2. rewrite Hv. replace (k * isz + Z.of_nat (Z.to_nat (isz * nmemb))) with ((k + nmemb) * isz) by nia. apply load_ext. intros j Hj. apply F1. lia. }
    destruct (IH (k + nmemb) m1 it1 I1 ltac:(lia) ltac:(nia) HF' Hl2') as (t2 & E2 & T2). rewrite E2. cbn [bind]. eexists. split; [reflexivity|].
    rewrite <- Hc. constructor; [|exact T1|exact T2]. eapply Forall_impl; [|exact HFv]. cbv beta. intros v Hvl. lia.
Qed.
End Print.

Lemma rows_text_app d wd sg r1 t1 r2 t2 : rows_text d wd sg r1 t1 -> rows_text d wd sg r2 t2 -> rows_text d wd sg (r1 ++ r2) (t1 ++ t2).
Proof. intros H1 H2. induction H1; cbn [app]; [exact H2|]. rewrite <- app_assoc. cbn [app]. constructor; assumption. Qed.

(* ------------------------------------------------------------------ bigfile-cat *)
Lemma last_step T o stop c : 0 < c -> o < stop -> stop <= T -> last_row T (o + Z.min c (T - o)) (stop - (o + Z.min c (T - o))) c = last_row T o (stop - o) c.
Proof.
  intros Hc H1 H2. unfold last_row. replace (stop - o <=? 0) with false by lia.
  destruct (Z_le_gt_dec c (T - o)) as [Hle|Hgt].
  - rewrite (Z.min_l c) by lia. destruct (stop - (o + c) <=? 0) eqn:E.
    + assert (Hq : (stop - o + c - 1) / c = 1) by (symmetry; apply Z.div_unique with (r := stop - o - 1); lia). rewrite Hq. lia.
    + assert (Hq : (stop - o + c - 1) / c = (stop - (o + c) + c - 1) / c + 1).
      { replace (stop - o + c - 1) with (stop - (o + c) + c - 1 + 1 * c) by lia. rewrite Z.div_add by lia. reflexivity. }
      rewrite Hq. f_equal. ring.
  - rewrite Z.min_r by lia. replace (stop - (o + (T - o)) <=? 0) with true by lia.
    assert (Hq : 1 <= (stop - o + c - 1) / c) by (apply Z.div_le_lower_bound; lia). nia.
Qed.
Lemma last_range T o stop c : 0 < c -> o < stop -> stop <= T -> o + Z.min c (T - o) <= last_row T o (stop - o) c <= T.
Proof.
  intros Hc H1 H2. unfold last_row. replace (stop - o <=? 0) with false by lia.
  assert (Hq : 1 <= (stop - o + c - 1) / c) by (apply Z.div_le_lower_bound; lia). nia.
Qed.

Section Cat.
Variables (e : env) (base dt : bytes) (nmemb : Z).
Let isz := itemsize (e_me e) dt.
Let w := isz * nmemb.
Hypothesis Hbn : block_name base.
Hypothesis Hty : header_type dt.
Hypothesis Hnm31 : 0 < nmemb < 2 ^ 31.
Hypothesis Hwc : w <= e_chunk e.
Hypothesis Hw31 : w < 2 ^ 31.
Hypothesis Hdt : dt_ok (e_me e) dt.
Notation inv := (hinv e base dt nmemb w).
Variables (humane : bool) (f : fs) (t : table) (b : block).
Hypothesis Hi : inv t f b.
Hypothesis Hsm : t_size t * nmemb < 2 ^ 63.
Variable P : list bytes -> bytes -> Prop.
Hypothesis Pnil : P [] [].
Hypothesis Papp : forall r1 t1 r2 t2, P r1 t1 -> P r2 t2 -> P (r1 ++ r2) (t1 ++ t2).
Hypothesis Pprint : forall rows m, 0 < zlen rows -> Forall (fun v => length v = Z.to_nat w) rows -> load m 0 (length (concat rows)) = Some (concat rows) ->
  exists s, cat_print e humane b (chunk_array (e_me e) b (zlen rows)) m = Ret s /\ P rows s.

Notation shown := (shows_from w t).
Lemma shown_app o r1 r2 : shown o r1 -> shown (o + zlen r1) r2 -> shown o (r1 ++ r2).
Proof.
  intros [A1 A2] [B1 B2]. split; [apply Forall_app; auto|]. intros j v Hj. destruct (Nat.lt_ge_cases j (length r1)) as [H|H].
  - rewrite nth_error_app1 in Hj by exact H. apply A2. exact Hj.
  - rewrite nth_error_app2 in Hj by exact H. apply B2 in Hj. unfold zlen in Hj. replace (o + Z.of_nat (length r1) + Z.of_nat (j - length r1)) with (o + Z.of_nat j) in Hj by lia. exact Hj.
Qed.
Lemma shown_split o rows c : shown o rows -> 0 <= c <= zlen rows -> shown o (firstn (Z.to_nat c) rows) /\ shown (o + c) (skipn (Z.to_nat c) rows).
Proof.
  intros [A1 A2] Hc. rewrite <- (firstn_skipn (Z.to_nat c) rows) in A1. apply Forall_app in A1. destruct A1 as [A1 A1']. unfold zlen in Hc.
  assert (Hl : length (firstn (Z.to_nat c) rows) = Z.to_nat c) by (rewrite firstn_length; lia). split; split; auto.
  - intros j v Hj. apply A2. rewrite <- (firstn_skipn (Z.to_nat c) rows). rewrite nth_error_app1; [exact Hj|]. apply nth_error_Some. congruence.
  - intros j v Hj. replace (o + c + Z.of_nat j) with (o + Z.of_nat (Z.to_nat c + j)) by lia. apply A2. rewrite <- (firstn_skipn (Z.to_nat c) rows). rewrite nth_error_app2 by lia.
    rewrite Hl. replace (Z.to_nat c + j - Z.to_nat c)%nat with j by lia. exact Hj.
Qed.
Lemma shows_absent r v : shows w t r v -> absent t r -> False.
Proof. intros [X|(_ & _ & r2 & X1 & X2 & X3)] [A1 A2]; [congruence|]. apply X3. auto. Qed.

Lemma cat_rows c size stop : 0 < c < 2 ^ 63 -> stop <= t_size t -> forall fuel o chunk, 0 <= o ->
  Z.max 0 (stop - o) < Z.of_nat fuel -> (if u64 size <? chunk then u64 size else chunk) = c ->
  let last := last_row (t_size t) o (stop - o) c in
  (forall rows, zlen rows = last - o -> shown o rows -> exists s, cat_loop e humane f b chunk size stop o fuel = Ret (0, s) /\ P rows s) /\
  ((exists r, o <= r < last /\ absent t r) -> exists rows s, cat_loop e humane f b chunk size stop o fuel = Ret (1, s) /\ P rows s /\ shown o rows /\ o + zlen rows <= last).
Proof.
  intros Hc Hst. destruct (hinv_size _ _ _ _ _ _ _ _ Hi) as (Es & Ed & En & HL). pose proof (hl_small _ _ HL) as H63. assert (Hts : t_size t < 2 ^ 63) by (unfold t_size in *; lia).
  induction fuel as [|k IH]; intros o chunk Ho Hfu Hch last.
  - exfalso. lia.
  - cbn [cat_loop]. destruct (o <? stop) eqn:Eo; cbn [negb].
    2:{ unfold last, last_row. replace (stop - o <=? 0) with true by lia. split.
        - intros rows Hl _. exists []. split; [reflexivity|]. destruct rows; [exact Pnil|rewrite zlen_cons in Hl; pose proof (zlen_nonneg rows); lia].
        - intros (r & Hr & _). lia. }
    rewrite Hch. rewrite s64_pos by lia.
    destruct (read_chunk e base dt nmemb Hbn Hty Hnm31 Hwc Hw31 Hdt t f b o c Hi ltac:(lia) ltac:(lia) Hsm ltac:(lia)) as [Hr Hr2]. set (n := Z.min c (t_size t - o)) in *.
    assert (Hn : 0 < n) by (unfold n; lia).
    pose proof (last_step (t_size t) o stop c ltac:(lia) ltac:(lia) Hst) as Hls. fold n in Hls. fold last in Hls.
    pose proof (last_range (t_size t) o stop c ltac:(lia) ltac:(lia) Hst) as Hlr. fold n last in Hlr.
    assert (Hch2 : (if u64 size <? c then u64 size else c) = c) by (clear -Hch; destruct (u64 size <? chunk) eqn:E1, (u64 size <? c) eqn:E2; lia).
    destruct (IH (o + n) c ltac:(lia) ltac:(lia) Hch2) as [IH1 IH2]. rewrite Hls in IH1, IH2. split.
    + intros rows Hl Hsh. destruct (shown_split o rows n Hsh ltac:(lia)) as [Hs1 Hs2]. set (part := firstn (Z.to_nat n) rows) in *.
      assert (Hpl : zlen part = n) by (unfold part, zlen in *; rewrite firstn_length; lia).
      destruct (Hr part Hpl (proj1 Hs1) (proj2 Hs1)) as (m & Er & Hm). rewrite Er. cbn [bind]. change (0 =? 0) with true. cbv iota.
      destruct (Pprint part m ltac:(lia) (proj1 Hs1) Hm) as (s & Ep & Hp). rewrite Hpl in Ep. rewrite Ep. cbn [bind]. change (hd 0 (a_dims (chunk_array (e_me e) b n))) with n.
      destruct (IH1 (skipn (Z.to_nat n) rows) ltac:(unfold zlen in *; rewrite skipn_length; lia) Hs2) as (s2 & E2 & Hp2). rewrite E2. cbn [bind].
      eexists. split; [reflexivity|]. rewrite <- (firstn_skipn (Z.to_nat n) rows). apply Papp; assumption.
    + intros Hab. destruct (rows_cases e base dt nmemb Hnm31 Hdt t f b Hi (Z.to_nat n) o) as [(part & Hpl & HFp & Hps)|Ha].
      2:{ rewrite Hr2 by (destruct Ha as (r & Hr' & Ha); exists r; split; [lia|exact Ha]). cbn [bind]. change (-1 =? 0) with false. cbv iota.
          exists [], []. split; [reflexivity|]. split; [exact Pnil|]. split; [split; [constructor|intros [|j] v; discriminate]|change (zlen []) with 0; lia]. }
      rewrite Z2Nat.id in Hpl by lia. destruct (Hr part Hpl HFp Hps) as (m & Er & Hm). rewrite Er. cbn [bind]. change (0 =? 0) with true. cbv iota.
      destruct (Pprint part m ltac:(lia) HFp Hm) as (s & Ep & Hp). rewrite Hpl in Ep. rewrite Ep. cbn [bind]. change (hd 0 (a_dims (chunk_array (e_me e) b n))) with n.
      assert (Hab' : exists r, o + n <= r < last /\ absent t r).
      { destruct Hab as (r & Hr' & Ha). exists r. split; [|exact Ha]. destruct (Z_lt_dec r (o + n)); [|lia]. exfalso.
        destruct (nth_error part (Z.to_nat (r - o))) as [v|] eqn:Ev; [|apply nth_error_None in Ev; unfold zlen in Hpl; lia].
        apply Hps in Ev. replace (o + Z.of_nat (Z.to_nat (r - o))) with r in Ev by lia. eapply shows_absent; eauto. }
      destruct (IH2 Hab') as (rows & s2 & E2 & Hp2 & Hsh2 & Hle). rewrite E2. cbn [bind]. exists (part ++ rows), (s ++ s2). split; [reflexivity|]. split; [apply Papp; assumption|].
      split; [apply shown_app; [split; assumption|rewrite Hpl; exact Hsh2]|]. unfold zlen in *. rewrite app_length. lia.
Qed.
End Cat.

(* opening a block that was made and used *)
Lemma live_open e path blk dt nmemb B t d f b0 : let base := path_join path blk in block_name base -> header_type dt -> 0 < nmemb < 2 ^ 31 -> B <= 2 ^ 61 ->
  fresh e base dt nmemb B t d f b0 -> exists b, big_file_open_block e f path blk = Ret (Some b) /\ fresh e base dt nmemb B t d f b.
Proof.
  intros base Hbn Hty Hnm HB F.
  destruct (fresh_open e base dt nmemb Hbn Hty Hnm B t d f b0 (fr_inv _ _ _ _ _ _ _ _ _ F) (fr_clean _ _ _ _ _ _ _ _ _ F) HB (fr_file _ _ _ _ _ _ _ _ _ F)
    (fr_no1 _ _ _ _ _ _ _ _ _ F) (ok_sorted _ _ _ (fr_ok _ _ _ _ _ _ _ _ _ F)) (fr_sv _ _ _ _ _ _ _ _ _ F) (fr_le _ _ _ _ _ _ _ _ _ F) (fr_tot _ _ _ _ _ _ _ _ _ F)) as (b1 & Eb1 & G1 & _).
  exists b1. auto.
Qed.

Lemma cat_begins e f path blk dt nmemb t d b0 humane : let base := path_join path blk in let w := itemsize (e_me e) dt * nmemb in
  block_name base -> header_type dt -> 0 < nmemb < 2 ^ 31 -> w < 2 ^ 31 -> dt_ok (e_me e) dt ->
  big_file_open f path = Some path -> fresh e base dt nmemb (2 ^ 61) t d f b0 ->
  forall start count buffersize fuel, 0 <= start < 2 ^ 62 -> -1 <= count < 2 ^ 62 ->
  exists b size, hinv e base dt nmemb w t f b /\ b_dtype b = dt /\ b_nmemb b = nmemb /\ 0 <= t_size t < 2 ^ 63 /\ big_block_close e f b = Ret (0, f) /\
    start + size <= t_size t /\ -2 ^ 62 < size < 2 ^ 63 /\ Z.max 0 size = rows_asked (t_size t) start count /\
    bigfile_cat e humane f path blk start count buffersize fuel =
     ('(rc, t) <- cat_loop e humane f b (buffersize / w) size (start + size) start fuel ;;
      if negb (rc =? 0) then Ret (rc, t, f) else
      '(_, f) <- big_block_close e f b ;;
      Ret (0, t, f)).
Proof.
  intros base w Hbn Hty Hnm Hw31 Hdt Ho F start count bs fuel Hs Hc.
  destruct (live_open e path blk dt nmemb (2 ^ 61) t d f b0 Hbn Hty Hnm ltac:(lia) F) as (b & Eb & G). destruct (hinv_size _ _ _ _ _ _ _ _ (fr_inv _ _ _ _ _ _ _ _ _ G)) as (Es & Ed & En & HL).
  pose proof (hl_small _ _ HL) as H63. assert (Hts : 0 <= t_size t < 2 ^ 63) by (unfold t_size in *; split; [apply zsum_nonneg; apply HL|lia]).
  assert (Hi : 0 < itemsize (e_me e) dt) by apply Hdt. assert (Hw : 0 < w) by (unfold w; nia).
  unfold bigfile_cat. rewrite Ho, Eb. cbn [bind]. rewrite Es, Ed, En. rewrite (Z.mul_comm nmemb). fold w. rewrite (u64_id w) by lia. replace (w =? 0) with false by lia.
  set (size := if (count =? -1) || (t_size t <? start + count) then t_size t - start else count).
  assert (Esz : (if (count =? -1) || (t_size t <? u64 (count + start)) then s64 (t_size t - start) else count) = size).
  { unfold size. destruct (count =? -1) eqn:E1; cbn [orb]; [apply s64_id; lia|]. rewrite u64_id by lia. rewrite (Z.add_comm count). destruct (t_size t <? start + count); [apply s64_id; lia|reflexivity]. }
  rewrite Esz. replace (negb (count =? -1) && ((2 ^ 63 <=? count + start) || (count + start <? - 2 ^ 63))) with false by lia.
  assert (Hsz : start + size <= t_size t /\ -2 ^ 62 < size < 2 ^ 63 /\ Z.max 0 size = rows_asked (t_size t) start count).
  { unfold rows_asked. fold size. unfold size. destruct (count =? -1) eqn:E1; cbn [orb]; [lia|]. destruct (t_size t <? start + count) eqn:E2; lia. }
  clearbody size. destruct Hsz as (Hst & Hsr & Hn). replace ((2 ^ 63 <=? start + size) || (start + size <? - 2 ^ 63)) with false by lia.
  exists b, size. split; [exact (fr_inv _ _ _ _ _ _ _ _ _ G)|]. split; [exact Ed|]. split; [exact En|]. split; [exact Hts|]. split; [|auto].
  unfold big_block_close. rewrite (FrameFacts.clean_flush e f b (fr_clean _ _ _ _ _ _ _ _ _ G) (hv_clean _ _ _ _ _ _ _ _ (fr_inv _ _ _ _ _ _ _ _ _ G))). reflexivity.
Qed.

Lemma cat_main e f path blk dt nmemb t d b0 humane (P : list bytes -> bytes -> Prop) : let base := path_join path blk in let w := itemsize (e_me e) dt * nmemb in
  block_name base -> header_type dt -> 0 < nmemb < 2 ^ 31 -> w <= e_chunk e -> w < 2 ^ 31 -> dt_ok (e_me e) dt -> t_size t * nmemb < 2 ^ 63 ->
  big_file_open f path = Some path -> fresh e base dt nmemb (2 ^ 61) t d f b0 ->
  P [] [] -> (forall r1 t1 r2 t2, P r1 t1 -> P r2 t2 -> P (r1 ++ r2) (t1 ++ t2)) ->
  (forall b rows m, b_dtype b = dt -> b_nmemb b = nmemb -> 0 < zlen rows -> Forall (fun v => length v = Z.to_nat w) rows -> load m 0 (length (concat rows)) = Some (concat rows) ->
     exists s, cat_print e humane b (chunk_array (e_me e) b (zlen rows)) m = Ret s /\ P rows s) ->
  forall start count buffersize fuel, 0 <= start < 2 ^ 62 -> -1 <= count < 2 ^ 62 -> w <= buffersize < 2 ^ 63 -> t_size t < Z.of_nat fuel ->
  let n := rows_asked (t_size t) start count in
  let last := last_row (t_size t) start n (Z.min (buffersize / w) n) in
  (forall rows, zlen rows = last - start -> shows_from w t start rows -> exists s, bigfile_cat e humane f path blk start count buffersize fuel = Ret (0, s, f) /\ P rows s) /\
  ((exists r, start <= r < last /\ absent t r) -> exists rows s, bigfile_cat e humane f path blk start count buffersize fuel = Ret (1, s, f) /\ P rows s /\ shows_from w t start rows /\ start + zlen rows <= last).
Proof.
  intros base w Hbn Hty Hnm Hwc Hw31 Hdt Hsm Ho F Pn Pa Pp start count bs fuel Hs Hc Hbs Hfu n last.
  destruct (cat_begins e f path blk dt nmemb t d b0 humane Hbn Hty Hnm Hw31 Hdt Ho F start count bs fuel Hs Hc) as (b & size & I & Ed & En & Hts & Hfl & Hst & Hsr & Hn & E0). rewrite E0. clear E0. fold w.
  assert (Hi : 0 < itemsize (e_me e) dt) by apply Hdt. assert (Hw : 0 < w) by (unfold w; nia). fold n in Hn. clearbody n.
  destruct (Z_le_gt_dec size 0) as [Hz|Hz].
  - (* nothing asked for *)
    assert (Hl : last = start) by (unfold last, last_row; replace (n <=? 0) with true by lia; reflexivity).
    destruct fuel as [|k]; [lia|]. cbn [cat_loop]. replace (start <? start + size) with false by lia. cbn [negb bind]. change (negb (0 =? 0)) with false. cbv iota. rewrite Hfl. cbn [bind].
    split; [|intros (r & Hr & _); lia]. intros rows Hr _. exists []. split; [reflexivity|]. destruct rows; [exact Pn|rewrite zlen_cons in Hr; pose proof (zlen_nonneg rows); lia].
  - assert (Hnn : n = size) by lia. set (c := Z.min (bs / w) size). assert (Hla : last = last_row (t_size t) start size c) by (unfold last, c; rewrite Hnn; reflexivity). clearbody last. subst last.
    assert (Hbw : 1 <= bs / w) by (apply Z.div_le_lower_bound; lia). assert (Hbw2 : bs / w < 2 ^ 63) by (apply Z.div_lt_upper_bound; nia).
    destruct (cat_rows e base dt nmemb Hbn Hty Hnm Hwc Hw31 Hdt humane f t b I Hsm P Pn Pa (fun rows m => Pp b rows m Ed En) c size (start + size) ltac:(lia) Hst fuel start (bs / w) ltac:(lia) ltac:(lia)) as [A B].
    { rewrite u64_id by lia. unfold c. destruct (size <? bs / w) eqn:E; lia. }
    replace (start + size - start) with size in A, B by lia. split.
    + intros rows Hl Hsh. destruct (A rows Hl Hsh) as (s & E & HP). rewrite E. cbn [bind]. change (negb (0 =? 0)) with false. cbv iota. rewrite Hfl. cbn [bind]. exists s. auto.
    + intros Hab. destruct (B Hab) as (rows & s & E & HP). rewrite E. cbn [bind]. change (negb (1 =? 0)) with true. cbv iota. exists rows, s. auto.
Qed.

(* a buffer smaller than a row *)
Lemma cat_stuck e f path blk dt nmemb t d b0 humane : let base := path_join path blk in let w := itemsize (e_me e) dt * nmemb in
  block_name base -> header_type dt -> 0 < nmemb < 2 ^ 31 -> w <= e_chunk e -> w < 2 ^ 31 -> dt_ok (e_me e) dt ->
  big_file_open f path = Some path -> fresh e base dt nmemb (2 ^ 61) t d f b0 ->
  forall start count buffersize fuel, 0 <= start < 2 ^ 62 -> -1 <= count < 2 ^ 62 -> 0 <= buffersize < w -> 0 < rows_asked (t_size t) start count ->
  bigfile_cat e humane f path blk start count buffersize fuel = Diverge.
Proof.
  intros base w Hbn Hty Hnm Hwc Hw31 Hdt Ho F start count bs fuel Hs Hc Hbs Hn.
  destruct (cat_begins e f path blk dt nmemb t d b0 humane Hbn Hty Hnm Hw31 Hdt Ho F start count bs fuel Hs Hc) as (b & size & I & Ed & En & Hts & Hfl & Hst & Hsr & Hsz & E0). rewrite E0. clear E0.
  fold w. rewrite Z.div_small by lia. replace (cat_loop e humane f b 0 size (start + size) start fuel) with (@Diverge (Z * bytes)); [reflexivity|]. symmetry.
  destruct (read_zero e base dt nmemb Hnm Hw31 Hdt t f b start 0 I ltac:(lia) ltac:(lia) ltac:(lia) ltac:(lia)) as (m & Er).
  assert (Hp : exists s, cat_print e humane b (chunk_array (e_me e) b 0) m = Ret s).
  { unfold cat_print. cbn [chunk_array a_dims a_size a_data hd]. rewrite Z.mul_0_l, Z.mul_0_r. destruct humane; eexists; reflexivity. }
  destruct Hp as (s & Ep). induction fuel as [|k IH]; [reflexivity|]. cbn [cat_loop]. replace (start <? start + size) with true by lia. cbn [negb].
  replace (u64 size <? 0) with false by (rewrite u64_id; lia). change (s64 0) with 0. rewrite Er. cbn [bind]. change (0 =? 0) with true. cbv iota. rewrite Ep. cbn [bind chunk_array a_dims hd].
  rewrite Z.add_0_r, IH. reflexivity.
Qed.

Lemma cat_binary e dt nmemb b rows m : let w := itemsize (e_me e) dt * nmemb in 0 < nmemb -> dt_ok (e_me e) dt -> b_dtype b = dt -> b_nmemb b = nmemb ->
  Forall (fun v => length v = Z.to_nat w) rows -> load m 0 (length (concat rows)) = Some (concat rows) ->
  cat_print e false b (chunk_array (e_me e) b (zlen rows)) m = Ret (concat rows).
Proof.
  intros w Hnm [_ Hi] Ed En HF Hl. unfold cat_print. cbn [chunk_array a_data a_size]. rewrite Ed, En.
  assert (Hlen : length (concat rows) = Z.to_nat (itemsize (e_me e) dt * (zlen rows * nmemb))).
  { clear Hl. induction HF as [|v rows Hv HF IH]; [rewrite Z.mul_0_r; reflexivity|]. cbn [concat]. rewrite app_length, IH, Hv, zlen_cons. pose proof (zlen_nonneg rows). unfold w. nia. }
  rewrite <- Hlen, Hl. reflexivity.
Qed.
Lemma cat_text e dt nmemb wd sg b rows m : let w := itemsize (e_me e) dt * nmemb in 0 < nmemb -> int_type dt wd sg -> b_dtype b = dt -> b_nmemb b = nmemb -> 0 < zlen rows ->
  Forall (fun v => length v = Z.to_nat w) rows -> load m 0 (length (concat rows)) = Some (concat rows) ->
  exists s, cat_print e true b (chunk_array (e_me e) b (zlen rows)) m = Ret s /\ rows_text dt wd sg rows s.
Proof.
  intros w Hnm Hty Ed En Hz HF Hl. unfold cat_print. set (a := chunk_array (e_me e) b (zlen rows)). assert (Ha : array_ok a) by (apply chunk_array_ok; lia).
  change (hd 0 (a_dims a)) with (zlen rows). rewrite En. replace (Z.to_nat (zlen rows)) with (length rows) by (unfold zlen; lia).
  assert (Hadr : forall k, 0 <= k < a_size a -> elem_addr a k = k * itemsize (e_me e) dt) by (intros k Hk; unfold a; rewrite chunk_addr by (try exact Hk; lia); rewrite Ed; reflexivity).
  apply (text_rows_ok e a dt wd sg Ha Ed Hty Hadr nmemb Hnm rows 0 m (iter_init (e_me e) a) (iter_init_at _ _ Ha)); try lia; auto.
  cbn [a chunk_array a_size]. rewrite En. lia.
Qed.

(* ------------------------------------------------------------------ *)
(* bigfile-set-attr *)
Lemma parse_args_ok sc me d w s : int_type (dtype_normalize me d) w s -> suffix (dtype_normalize me d) <> lit "b1" ->
  forall args zs, Forall2 number args zs -> Forall (in_type w s) zs -> forall m x, (forall y, x <= y < x + itemsize me d * zlen args -> m y <> None) ->
  exists m' vs, parse_args sc me d m x args = Ret (Some m') /\ Forall2 (fun v z => length v = Z.to_nat (itemsize me d) /\ int_value (dtype_normalize me d) w s v = z) vs zs /\
    load m' x (Z.to_nat (itemsize me d * zlen args)) = Some (concat vs) /\ (forall y, y < x -> m' y = m y).
Proof.
  intros H Hb. pose proof (int_width me _ _ _ H) as Hw. rewrite itemsize_normalize in Hw. assert (Hi : 0 < itemsize me d) by (inversion H; lia).
  induction 1 as [|t z args zs Hn HF IH]; intros Hz m x Hm.
  - exists m, []. split; [reflexivity|]. split; [constructor|]. split; [|auto]. change (zlen []) with 0. rewrite Z.mul_0_r. reflexivity.
  - rewrite zlen_cons in *. pose proof (zlen_nonneg args). cbn [parse_args].
    destruct (parse_elem sc me d w s t z m x H Hb Hn (Forall_inv Hz) ltac:(intros y Hy; apply Hm; nia)) as (m1 & v & E1 & L1 & V1 & F1). rewrite E1. cbn [bind]. change (negb (0 =? 0)) with false. cbv iota.
    destruct (IH (Forall_inv_tail Hz) m1 (x + itemsize me d)) as (m2 & vs & E2 & F2 & L2 & G2). { intros y Hy. rewrite F1 by lia. apply Hm. nia. }
    exists m2, (v :: vs). split; [exact E2|]. pose proof (load_length _ _ _ _ L1) as Ll. split; [constructor; auto|]. split; [|intros y Hy; rewrite G2, F1 by lia; reflexivity].
    replace (Z.to_nat (itemsize me d * (1 + zlen args))) with (Z.to_nat (itemsize me d) + Z.to_nat (itemsize me d * zlen args))%nat by nia.
    cbn [concat]. apply load_app; [|rewrite Z2Nat.id by lia; exact L2].
    rewrite <- L1. apply load_ext. intros y Hy. apply G2. lia.
Qed.

Lemma close_only e f b rc f' : b_dirty b = false -> big_block_close e f b = Ret (rc, f') -> forall q, q <> attr2_path (b_base b) -> fs_get f' q = fs_get f q.
Proof.
  unfold big_block_close, big_block_flush. intros -> H q Hq. cbn [bind] in H. change (negb (0 =? 0)) with false in H. cbv iota in H. destruct (as_dirty (b_attrset b)).
  - destruct (fopen_w f (attr2_path (b_base b))) as [f2|] eqn:E; cbn [bind] in H; [|congruence].
    destruct (attr_lines _ _ _ _) as [[img s']|u|]; cbn [bind] in H; try discriminate H. injection H as _ <-. rewrite fs_get_set_other by exact Hq. apply (open_w_only _ _ _ E). exact Hq.
  - cbn [bind] in H. congruence.
Qed.

Lemma set_given e sc f path blk dt nmemb B t dd b0 (M : amap) (force : bool) d n0 name args n m : let base := path_join path blk in
  let old := if force then None else M name in
  let asked := match old with Some v => if n0 =? 0 then av_nmemb v else n0 | None => n0 end in
  g_clean e -> block_name base -> header_type dt -> 0 < nmemb < 2 ^ 31 -> itemsize (e_me e) dt * nmemb < 2 ^ 31 ->
  big_file_open f path = Some path -> fresh e base dt nmemb B t dd f b0 -> (forall k, assoc k dd = M k) ->
  args <> [] -> asked = n -> 0 < n -> sop_ok (e_me e) (SSet name m 0 d n) -> has_blank name = false ->
  (forall m0, m0 = malloc_mem 0 (itemsize (e_me e) d * n) ->
    (if Byte.eqb (dtype_kind (e_me e) d) "S" then n = zlen (hd [] args) + 1 /\ store m0 0 (hd [] args ++ [x00]) = Some m
     else n = zlen args /\ parse_args sc (e_me e) d m0 0 args = Ret (Some m))) ->
  B + sop_size (e_me e) (SSet name m 0 d n) <= 2 ^ 61 ->
  exists f' b', bigfile_set_attr e sc f path blk force (Some d) n0 name args = Ret (0, f') /\ big_file_open_block e f' path blk = Ret (Some b') /\
    (exists dd', fresh e base dt nmemb (2 ^ 61) t dd' f' b' /\ forall k, assoc k dd' = with_attr M name (Some (sval (e_me e) m 0 d n)) k) /\
    forall q, q <> attr2_path base -> fs_get f' q = fs_get f q.
Proof.
  intros base old asked Hg Hbn Hty Hnm Hw31 Ho F HM Hargs Hn Hn0 Hop Hbl Hfill HB.
  assert (Hsz0 : 0 <= sop_size (e_me e) (SSet name m 0 d n)) by (destruct Hop as [Ha _]; exact (aop_size_nonneg _ _ Ha)).
  destruct (live_open e path blk dt nmemb B t dd f b0 Hbn Hty Hnm ltac:(lia) F) as (b & Eb & G).
  set (os := (if force then [SRemove name] else []) ++ [SSet name m 0 d n]).
  assert (Hos : Forall (sop_ok (e_me e)) os). { unfold os. apply Forall_app. split; [destruct force; repeat constructor|constructor; [exact Hop|constructor]]. apply Hop. }
  assert (Hsz : zsum (map (sop_size (e_me e)) os) = sop_size (e_me e) (SSet name m 0 d n)). { unfold os, zsum. destruct force; cbn [app map fold_right]; cbn [sop_size]; lia. }
  destruct (attrs_round e base dt nmemb Hg Hbn Hty Hnm Hw31 B t dd f b os M G HM Hos ltac:(lia)) as (f' & b' & d' & E & G' & A' & _).
  destruct (hinv_size _ _ _ _ _ _ _ _ (fr_inv _ _ _ _ _ _ _ _ _ G)) as (_ & _ & _ & _). pose proof (hv_base _ _ _ _ _ _ _ _ (fr_inv _ _ _ _ _ _ _ _ _ G)) as Ebase.
  (* the handle before the attribute is set *)
  assert (HS : exists s1 m1 rc1, (if force then attrset_remove_attr (b_attrset b) name else Ret (0, b_attrset b)) = Ret (rc1, s1) /\ as_ok (e_me e) s1 m1 /\ assoc name m1 = old).
  { pose proof (fr_ok _ _ _ _ _ _ _ _ _ G) as Ok. unfold old. destruct force; [|exists (b_attrset b), dd, 0; auto].
    pose proof (remove_spec _ _ _ name Ok) as R. destruct (assoc name dd) eqn:Ea.
    - destruct R as (l' & R1 & R2). eexists _, _, _. split; [exact R1|]. split; [exact R2|]. rewrite assoc_edrop, bytes_eqb_refl. reflexivity.
    - exists (b_attrset b), dd, (-1). auto. }
  destruct HS as (s1 & m1 & rc1 & Hs1 & Ok1 & Hold).
  assert (Hlook : exists i oa, lookup_index s1 name = Ret i /\ attrset_lookup_attr s1 name = Ret oa /\ (match oa with Some a => if n0 =? 0 then at_nmemb a else n0 | None => n0 end) = n).
  { destruct (lookup_spec _ _ _ name Ok1) as [(i & a & v & L1 & L2 & L3 & L4 & R & L5)|(L1 & L2 & L3)].
    - exists (Some i), (Some a). split; [exact L1|]. split; [exact L3|]. rewrite <- Hn. unfold asked. rewrite <- Hold, L5. rewrite (r_nmemb _ _ _ _ R). reflexivity.
    - exists None, None. split; [exact L1|]. split; [exact L2|]. rewrite <- Hn. unfold asked. rewrite <- Hold, L3. reflexivity. }
  destruct Hlook as (i & oa & Hli & Hla & Hcount).
  (* what the round does *)
  assert (HR : exists s2 um2 rc2 rc3, attrset_set_attr (e_realloc e) (e_me e) s1 name m 0 d n = Ret (rc2, s2, um2) /\ big_block_close e f (set_attrs b s2) = Ret (rc3, f') /\ big_block_open e f' base = Ret (Some b')).
  { cbn [run_round] in E. unfold os in E. destruct force.
    - cbn [app srun sstep] in E. rewrite Hs1 in E. cbn [bind sstep] in E. change (b_attrset (set_attrs b s1)) with s1 in E.
      destruct (attrset_set_attr _ _ s1 name m 0 d n) as [[[rc2 s2] um2]|u|]; cbn [bind sstep] in E; try discriminate E. change (set_attrs (set_attrs b s1) s2) with (set_attrs b s2) in E.
      destruct (big_block_close e f (set_attrs b s2)) as [[rc3 f3]|u|] eqn:Ecl; cbn [bind sstep] in E; try discriminate E.
 cbn [set_attrs b_base] in E. rewrite Ebase in E. fold base in E.
      destruct (big_block_open e f3 base) as [[b3|]|u|] eqn:E3; cbn [bind sstep] in E; try discriminate E.
      + injection E as <- <-. exists s2, um2, rc2, rc3. auto.
      + exfalso. injection E as <- <-. destruct (live_open e path blk dt nmemb (B + zsum (map (sop_size (e_me e)) os)) t d' f3 _ Hbn Hty Hnm ltac:(rewrite Hsz; exact HB) G') as (b9 & E9 & _). unfold big_file_open_block in E9. fold base in E9. congruence.
    - injection Hs1 as <- <-. cbn [app srun sstep] in E.
      destruct (attrset_set_attr _ _ (b_attrset b) name m 0 d n) as [[[rc2 s2] um2]|u|]; cbn [bind sstep] in E; try discriminate E.
      destruct (big_block_close e f (set_attrs b s2)) as [[rc3 f3]|u|] eqn:Ecl; cbn [bind sstep] in E; try discriminate E. cbn [set_attrs b_base] in E. rewrite Ebase in E. fold base in E.
      destruct (big_block_open e f3 base) as [[b3|]|u|] eqn:E3; cbn [bind sstep] in E; try discriminate E.
      + injection E as <- <-. exists s2, um2, rc2, rc3. auto.
      + exfalso. injection E as <- <-. destruct (live_open e path blk dt nmemb (B + zsum (map (sop_size (e_me e)) os)) t d' f3 _ Hbn Hty Hnm ltac:(rewrite Hsz; exact HB) G') as (b9 & E9 & _). unfold big_file_open_block in E9. fold base in E9. congruence. }
  destruct HR as (s2 & um2 & rc2 & rc3 & Es2 & Ecl & Eop).
  exists f', b'. split; [|split; [exact Eop|split]].
  - unfold bigfile_set_attr. destruct args as [|arg args]; [contradiction|]. rewrite Ho. rewrite Eb. cbn [bind].
    match goal with |- bind ?X _ = _ => replace X with (Ret s1) by (destruct force; [rewrite Hs1; reflexivity|injection Hs1 as <- <-; reflexivity]) end.
    cbn [bind]. rewrite Hli, Hla. cbn [bind or_ub]. rewrite Hcount. destruct Hop as [(_ & Hi & _ & Hi31 & _) _]. assert (0 < itemsize (e_me e) d * n) by nia.
    replace (2 ^ 31 <=? Z.abs (itemsize (e_me e) d * n)) with false by lia. replace (itemsize (e_me e) d * n <? 0) with false by lia. cbn [hd] in Hfill.
    specialize (Hfill _ eq_refl). replace (n =? 0) with false by lia. destruct (Byte.eqb (dtype_kind (e_me e) d) "S").
    + destruct Hfill as [Hc Hst]. replace (n =? zlen arg + 1) with true by lia. cbn [negb]. rewrite Hst. cbn [or_ub bind]. rewrite Es2. cbn [bind]. rewrite Ecl. reflexivity.
    + destruct Hfill as [Hc Hst]. replace (n =? zlen (arg :: args)) with true by lia. cbn [negb]. rewrite Hst. cbn [or_ub bind]. rewrite Es2. cbn [bind]. rewrite Ecl. reflexivity.
  - exists d'. split; [destruct G'; constructor; auto; lia|]. intros k. rewrite A'. unfold attrs_after, os. destruct force; cbn [app sspecs].
    + cbn [sspec SessSpec.live]. destruct (M name) eqn:Em; rewrite Hbl; cbn [sspecs snd fst sflush pending saved SessSpec.live]; [|reflexivity]. unfold with_attr. destruct (bytes_eqb k name); reflexivity.
    + cbn [sspec SessSpec.live]. rewrite Hbl. reflexivity.
  - intros q Hq. eapply close_only; [|exact Ecl|]; [exact (fr_clean _ _ _ _ _ _ _ _ _ G)|]. change (b_base (set_attrs b s2)) with (b_base b). rewrite Ebase. exact Hq.
Qed.
