(* The header text: scanning what was printed, and prefixes of it. *)
From Coq.Strings Require Import Byte String.
From Coq Require Import List ZArith Lia Bool ZifyBool ZifyNat.
From Verif Require Import Base BaseFacts Dtype Cast Array FS Fmt Attr Block Spec FSFacts.
Import ListNotations.
Open Scope Z_scope.
Ltac Zify.zify_post_hook ::= Z.div_mod_to_equations.

(* ------------------------------------------------------------- digits *)
Ltac cases10 d := assert (Hd : d = 0 \/ d = 1 \/ d = 2 \/ d = 3 \/ d = 4 \/ d = 5 \/ d = 6 \/ d = 7 \/ d = 8 \/ d = 9) by lia.

Lemma xval_digit d : 0 <= d < 10 -> xval (digit d) = Some d.
Proof. intros H. cases10 d. repeat destruct Hd as [->|Hd]; subst; reflexivity. Qed.

Lemma xval_xdigit d : 0 <= d < 16 -> xval (xdigit d) = Some d.
Proof.
  intros H. assert (Hd : d < 10 \/ d = 10 \/ d = 11 \/ d = 12 \/ d = 13 \/ d = 14 \/ d = 15) by lia.
  destruct Hd as [Hd|Hd].
  - unfold xdigit. replace (d <? 10) with true by lia. apply xval_digit. lia.
  - repeat destruct Hd as [->|Hd]; subst; reflexivity.
Qed.

(* The rest of the input does not continue a number. *)
Definition stops (base : Z) (rest : bytes) : Prop :=
  match rest with
  | [] => True
  | c :: _ => match xval c with Some d => base <= d | None => True end
  end.

Lemma scan_digits_stop base acc n w rest : stops base rest -> scan_digits base acc n w rest = (acc, n, rest).
Proof.
  destruct w; simpl; auto. destruct rest as [|c r]; auto. simpl. destruct (xval c); auto.
  intros H. destruct (z <? base) eqn:E; auto. lia.
Qed.

(* A prefix of a printed number is a (possibly empty) run of digits. *)
Definition all_dig (base : Z) (l : bytes) : Prop := Forall (fun c => exists d, 0 <= d < base /\ xval c = Some d) l.

Section Num.
  Variables (base : Z) (dig : Z -> byte).
  Hypothesis Hbase : 1 < base.
  Hypothesis Hdig : forall d, 0 <= d < base -> xval (dig d) = Some d.

  Lemma scan_printed : forall fuel z acc n w rest, (0 < fuel)%nat -> 0 <= z < base ^ Z.of_nat fuel ->
    (length (digits_lsf base dig fuel z) <= w)%nat ->
    scan_digits base acc n w (rev (digits_lsf base dig fuel z) ++ rest) =
    scan_digits base (acc * base ^ Z.of_nat (length (digits_lsf base dig fuel z)) + z)
      (n + length (digits_lsf base dig fuel z)) (w - length (digits_lsf base dig fuel z)) rest.
  Proof.
    induction fuel as [|k IH]; intros z acc n w rest Hf Hz Hw; [lia|].
    cbn [digits_lsf] in *.
    assert (Hm : 0 <= z mod base < base) by (apply Z.mod_pos_bound; lia).
    assert (Hq : z = base * (z / base) + z mod base) by (apply Z.div_mod; lia).
    destruct (z / base =? 0) eqn:E.
    - cbn [rev app length] in *. destruct w as [|w]; [simpl in Hw; lia|].
      cbn [scan_digits app]. rewrite Hdig by auto. replace (z mod base <? base) with true by lia.
      replace (Z.of_nat 1) with 1 by lia. rewrite Z.pow_1_r.
      replace (base * acc + z mod base) with (acc * base + z) by lia.
      f_equal; lia.
    - assert (Hk : (0 < k)%nat). { destruct k; [|lia]. exfalso. change (Z.of_nat 1) with 1 in Hz. rewrite Z.pow_1_r in Hz. nia. }
      assert (Hz' : 0 <= z / base < base ^ Z.of_nat k).
      { split; [apply Z.div_pos; lia|]. apply Z.div_lt_upper_bound; [lia|].
        rewrite Nat2Z.inj_succ, Z.pow_succ_r in Hz by lia. lia. }
      cbn [rev length] in *. rewrite <- app_assoc. rewrite IH by (auto; lia).
      set (L := length (digits_lsf base dig k (z / base))) in *.
      destruct (w - L)%nat as [|w'] eqn:Ew; [lia|].
      cbn [scan_digits app]. rewrite Hdig by auto. replace (z mod base <? base) with true by lia.
      replace (Z.of_nat (S L)) with (Z.of_nat L + 1) by lia. rewrite Z.pow_add_r, Z.pow_1_r by lia.
      f_equal; [|lia|lia]. clear - Hq. generalize dependent (z mod base). generalize (z / base). intros q m ->. ring.
  Qed.

  Lemma digits_all : forall fuel z, 0 <= z -> all_dig base (digits_lsf base dig fuel z).
  Proof.
    induction fuel; intros z Hz; cbn [digits_lsf]; constructor.
    - exists (z mod base). assert (0 <= z mod base < base) by (apply Z.mod_pos_bound; lia). auto.
    - destruct (z / base =? 0); [constructor|]. apply IHfuel. apply Z.div_pos; lia.
  Qed.
End Num.

  Lemma scan_all_dig base : forall l acc n w, all_dig base l -> (length l <= w)%nat ->
    exists v, scan_digits base acc n w l = (v, (n + length l)%nat, []).
  Proof.
    induction l as [|c l IH]; intros acc n w H Hw.
    - exists acc. destruct w; simpl; rewrite Nat.add_0_r; auto.
    - inversion H as [|? ? (d & Hd & Hx) Hl]; subst. destruct w as [|w]; [simpl in Hw; lia|].
      cbn [scan_digits]. rewrite Hx. replace (d <? base) with true by lia.
      simpl in Hw. destruct (IH (base * acc + d) (S n) w Hl ltac:(lia)) as [v Hv].
      exists v. rewrite Hv. f_equal. f_equal. simpl. lia.
  Qed.


Lemma all_dig_rev base l : all_dig base l -> all_dig base (rev l).
Proof. intros H. apply Forall_rev. auto. Qed.
Lemma all_dig_firstn base l n : all_dig base l -> all_dig base (firstn n l).
Proof. intros H. apply Forall_forall. intros x Hx. unfold all_dig in H. rewrite Forall_forall in H. apply H.
  rewrite <- (firstn_skipn n l). apply in_or_app. auto. Qed.

Lemma print_unsigned_dig z : 0 <= z -> all_dig 10 (print_unsigned z).
Proof. intros. apply all_dig_rev. apply digits_all; auto; try lia. apply xval_digit. Qed.

Lemma print_unsigned_nonnil z : print_unsigned z <> [].
Proof.
  unfold print_unsigned. intros H. apply (f_equal (@rev byte)) in H. rewrite rev_involutive in H.
  revert H. apply digits_nonnil. lia.
Qed.

(* what a digit is not *)
Lemma xval_char c d : xval c = Some d -> is_space c = false /\ Byte.eqb c "-" = false /\ Byte.eqb c "+" = false
  /\ Byte.eqb c "x" = false /\ Byte.eqb c "X" = false.
Proof. destruct c; vm_compute; intros H; try discriminate; auto. Qed.

Lemma drop_space_dig base l r : all_dig base l -> l <> [] -> drop_space (l ++ r) = l ++ r.
Proof.
  intros H Hn. destruct l as [|c l]; [congruence|]. inversion H as [|? ? (d & _ & Hx) _]; subst.
  simpl. apply xval_char in Hx. destruct Hx as (-> & _). reflexivity.
Qed.

Lemma scan_dec_dig l rest : all_dig 10 l -> l <> [] ->
  scan_dec (l ++ rest) = match scan_digits 10 0 0 (length (l ++ rest)) (l ++ rest) with
                         | (_, O, _) => None | (v, _, r) => Some (v, r) end.
Proof.
  intros H Hn. unfold scan_dec. rewrite (drop_space_dig 10) by auto.
  destruct l as [|c l]; [congruence|]. inversion H as [|? ? (d & _ & Hx) _]; subst.
  apply xval_char in Hx. destruct Hx as (_ & E1 & E2 & _). cbn [app]. rewrite E1, E2. reflexivity.
Qed.

Lemma scan_dec_unsigned z rest : 0 <= z < 10 ^ 64 -> stops 10 rest ->
  scan_dec (print_unsigned z ++ rest) = Some (z, rest).
Proof.
  intros Hz Hs. rewrite scan_dec_dig; [|apply print_unsigned_dig; lia|apply print_unsigned_nonnil].
  unfold print_unsigned. rewrite (scan_printed 10 digit) ; [|lia|apply xval_digit|lia|exact Hz|rewrite app_length, rev_length; lia].
  rewrite scan_digits_stop by auto.
  pose proof (digits_nonnil 10 digit 64 z ltac:(lia)) as Hn.
  destruct (digits_lsf 10 digit 64 z); [congruence|]. simpl (0 + _)%nat. cbn [length]. rewrite Z.mul_0_l. reflexivity.
Qed.

Lemma scan_dec_signed z rest : - 10 ^ 64 < z < 10 ^ 64 -> stops 10 rest ->
  scan_dec (print_signed z ++ rest) = Some (z, rest).
Proof.
  intros Hz Hs. unfold print_signed. destruct (z <? 0) eqn:E; [|apply scan_dec_unsigned; auto; lia].
  pose proof (scan_dec_unsigned (- z) rest ltac:(lia) Hs) as H.
  rewrite scan_dec_dig in H; [|apply print_unsigned_dig; lia|apply print_unsigned_nonnil].
  unfold scan_dec. cbn [app drop_space].
  change (is_space "-") with false. cbv iota. change (Byte.eqb "-" "-") with true. cbv iota.
  destruct (scan_digits 10 0 0 (length (print_unsigned (- z) ++ rest)) (print_unsigned (- z) ++ rest)) as [[v n] r].
  destruct n; [discriminate|]. injection H as -> ->. f_equal. f_equal. lia.
Qed.

(* A run of digits cut short, possibly empty. *)
Lemma scan_dec_cut l : all_dig 10 l -> scan_dec l = None \/ exists v, scan_dec l = Some (v, []).
Proof.
  intros H. destruct l as [|c l]; [left; reflexivity|].
  rewrite <- (app_nil_r (c :: l)). rewrite scan_dec_dig by (auto; congruence). rewrite app_nil_r.
  destruct (scan_all_dig 10 (c :: l) 0 0 (length (c :: l)) H ltac:(lia)) as [v Hv].
  rewrite Hv. right. exists v. reflexivity.
Qed.

Lemma scan_bound : forall l acc n w v m r, all_dig 10 l -> 0 <= acc -> scan_digits 10 acc n w l = (v, m, r) ->
  acc <= v < (acc + 1) * 10 ^ Z.of_nat (length l).
Proof.
  induction l as [|c l IH]; intros acc n w v m r Hd Ha Hs.
  - destruct w; simpl in Hs; injection Hs as <- _ _; simpl; lia.
  - inversion Hd as [|? ? (d & Hdr & Hx) Hl]; subst. destruct w as [|w].
    + simpl in Hs. injection Hs as <- _ _.
      assert (0 < 10 ^ Z.of_nat (length (c :: l))) by (apply Z.pow_pos_nonneg; lia). nia.
    + cbn [scan_digits] in Hs. rewrite Hx in Hs. replace (d <? 10) with true in Hs by lia.
      apply IH in Hs; auto; [|lia]. cbn [length]. rewrite Nat2Z.inj_succ, Z.pow_succ_r by lia.
      assert (0 < 10 ^ Z.of_nat (length l)) by (apply Z.pow_pos_nonneg; lia). nia.
Qed.

Lemma digits_len10 fuel : forall n z, 0 <= z < 10 ^ Z.of_nat n -> (0 < n)%nat -> (length (digits_lsf 10 digit fuel z) <= n)%nat.
Proof.
  induction fuel as [|fuel IH]; intros n z Hz Hn; cbn [digits_lsf length]; [lia|].
  destruct (z / 10 =? 0) eqn:E; cbn [length]; [lia|].
  destruct n as [|[|n]]; [lia| |]. { change (10 ^ Z.of_nat 1) with 10 in Hz. lia. }
  specialize (IH (S n) (z / 10)). rewrite Nat2Z.inj_succ, Z.pow_succ_r in Hz by lia.
  assert (0 <= z / 10 < 10 ^ Z.of_nat (S n)) by lia. lia.
Qed.

(* A proper non-empty prefix of a number below 10^9 has a positive value. *)
Lemma scan_d_cut_pos z q c t v r : 0 <= z < 10 ^ 9 -> print_unsigned z = q ++ c :: t -> scan_d q = Some (v, r) -> 0 < v.
Proof.
  intros Hz Ht. unfold scan_d.
  assert (Hdz : all_dig 10 (print_unsigned z)) by (apply print_unsigned_dig; lia).
  assert (Hd : all_dig 10 q) by (rewrite Ht in Hdz; apply Forall_app in Hdz; apply Hdz).
  assert (Hlen : (length (print_unsigned z) <= 9)%nat).
  { unfold print_unsigned. rewrite rev_length. apply digits_len10; lia. }
  rewrite Ht, app_length in Hlen. simpl in Hlen.
  destruct q as [|d q]; [discriminate|].
  assert (Hp : 0 < z).
  { destruct (Z.eq_dec z 0) as [->|]; [|lia]. vm_compute in Ht. injection Ht as _ Ht. destruct q; discriminate. }
  assert (Hf : d <> digit 0).
  { destruct (digits_zero_last 10 digit 64 z ltac:(lia) ltac:(change (Z.of_nat 64) with 64; lia) Hp) as (l & d' & El & Hd').
    - intros a Ha. cbv [digit]. intros E. apply (f_equal b2z) in E. rewrite !b2z_z2b in E. change (b2z "0") with 48 in E. lia.
    - unfold print_unsigned in Ht. rewrite El, rev_app_distr in Ht. simpl in Ht. injection Ht as -> _. auto. }
  rewrite <- (app_nil_r (d :: q)). rewrite scan_dec_dig by (auto; congruence). rewrite app_nil_r.
  inversion Hd as [|? ? (x & Hx & Ex) Hq]; subst.
  assert (Hx0 : 0 < x).
  { destruct (Z.eq_dec x 0) as [->|]; [|lia]. exfalso. apply Hf. clear - Ex. destruct d; vm_compute in Ex; try discriminate; reflexivity. }
  cbn [length scan_digits]. rewrite Ex. replace (x <? 10) with true by lia.
  destruct (scan_digits 10 (10 * 0 + x) 1 (length q) q) as [[v' m] r'] eqn:Es.
  pose proof (scan_all_dig 10 q (10 * 0 + x) 1 (length q) Hq ltac:(lia)) as [v'' Hv''].
  rewrite Es in Hv''. injection Hv'' as -> -> ->. simpl (1 + _)%nat.
  apply scan_bound in Es; auto; [|lia].
  assert (Hql : Z.of_nat (length q) <= 7) by (clear - Hlen; simpl in Hlen; lia).
  assert (10 ^ Z.of_nat (length q) <= 10 ^ 7) by (apply Z.pow_le_mono_r; [lia|exact Hql]).
  change (10 ^ 7) with 10000000 in *.
  assert (v'' < 10 * 10000000) by nia.
  intros H1. injection H1 as <- _. unfold sat_long.
  replace (2 ^ 63 <=? v'') with false by lia. replace (v'' <? - 2 ^ 63) with false by lia. rewrite s32_id by lia. lia.
Qed.

Lemma scan_dec_cut_signed z p : (exists t, print_signed z = p ++ t) -> scan_dec p = None \/ exists v, scan_dec p = Some (v, []).
Proof.
  intros [t Ht]. unfold print_signed in Ht. destruct (z <? 0) eqn:E.
  - destruct p as [|c p]; [left; reflexivity|]. injection Ht as <- Hp.
    assert (Hd : all_dig 10 p).
    { replace p with (firstn (length p) (print_unsigned (- z))).
      - apply all_dig_firstn. apply print_unsigned_dig. lia.
      - rewrite Hp. rewrite firstn_app, Nat.sub_diag. simpl. rewrite app_nil_r. apply firstn_all. }
    unfold scan_dec. cbn [drop_space]. change (is_space "-") with false. cbv iota.
    change (Byte.eqb "-" "-") with true. cbv iota.
    destruct (scan_all_dig 10 p 0 0 (length p) Hd ltac:(lia)) as [v Hv]. rewrite Hv.
    destruct (0 + length p)%nat; [left; reflexivity|right; eexists; reflexivity].
  - apply scan_dec_cut. replace p with (firstn (length p) (print_unsigned z)).
    + apply all_dig_firstn. apply print_unsigned_dig. lia.
    + rewrite Ht. rewrite firstn_app, Nat.sub_diag. simpl. rewrite app_nil_r. apply firstn_all.
Qed.

Lemma scan_dec_cut_unsigned z p : 0 <= z -> (exists t, print_unsigned z = p ++ t) -> scan_dec p = None \/ exists v, scan_dec p = Some (v, []).
Proof.
  intros Hz H. apply (scan_dec_cut_signed z). unfold print_signed. replace (z <? 0) with false by lia. auto.
Qed.

(* ------------------------------------------------------------- %06X *)
Lemma digits_len16 z : 0 <= z < 16 ^ 6 -> (length (digits_lsf 16 xdigit 64 z) <= 6)%nat.
Proof.
  assert (H : forall n fuel z, 0 <= z < 16 ^ Z.of_nat n -> (0 < n)%nat -> (length (digits_lsf 16 xdigit fuel z) <= n)%nat).
  { induction n as [|n IH]; intros fuel z0 Hz Hn; [lia|]. destruct fuel; cbn [digits_lsf length]; [lia|].
    destruct (z0 / 16 =? 0) eqn:E; cbn [length]; [lia|].
    destruct n as [|n]. { change (16 ^ Z.of_nat 1) with 16 in Hz. lia. }
    specialize (IH fuel (z0 / 16)). rewrite Nat2Z.inj_succ, Z.pow_succ_r in Hz by lia.
    assert (0 <= z0 / 16 < 16 ^ Z.of_nat (S n)) by lia. lia. }
  intros Hz. apply (H 6%nat); auto; lia.
Qed.

Lemma print_06X_dig z : 0 <= z -> all_dig 16 (print_06X z).
Proof.
  intros. unfold print_06X. apply Forall_app. split.
  - apply Forall_forall. intros c Hc. apply repeat_spec in Hc. subst. exists 0. split; [lia|reflexivity].
  - apply all_dig_rev. apply digits_all; auto; try lia. apply xval_xdigit.
Qed.

Lemma print_06X_len6 z : 0 <= z < 16 ^ 6 -> length (print_06X z) = 6%nat.
Proof.
  intros. pose proof (digits_len16 z H). unfold print_06X. rewrite app_length, repeat_length, rev_length. lia.
Qed.

Lemma scan_zeros k : forall n w rest, (k <= w)%nat ->
  scan_digits 16 0 n w (repeat "0"%byte k ++ rest) = scan_digits 16 0 (n + k) (w - k) rest.
Proof.
  induction k as [|k IH]; intros n w rest Hw; cbn [repeat app].
  - f_equal; lia.
  - destruct w as [|w]; [lia|]. cbn [scan_digits]. change (xval "0") with (Some 0).
    cbv iota. change (0 <? 16) with true. cbv iota. change (16 * 0 + 0) with 0. rewrite IH by lia. f_equal; lia.
Qed.

Lemma scan_06X_dig l rest : all_dig 16 l -> l <> [] ->
  scan_06X (l ++ rest) =
  (match l ++ rest with
   | c :: x :: r => if Byte.eqb c "0" && (Byte.eqb x "x" || Byte.eqb x "X") then scan_06X (l ++ rest)
                    else match scan_digits 16 0 0 6 (l ++ rest) with
                         | (_, O, _) => None | (v, _, r) => Some (s32 (sat_ulong v), r) end
   | _ => match scan_digits 16 0 0 6 (l ++ rest) with
          | (_, O, _) => None | (v, _, r) => Some (s32 (sat_ulong v), r) end
   end).
Proof.
  intros H Hn. unfold scan_06X at 1. rewrite (drop_space_dig 16) by auto.
  destruct l as [|c l]; [congruence|]. inversion H as [|? ? (d & _ & Hx) Hl]; subst.
  apply xval_char in Hx. destruct Hx as (_ & E1 & E2 & _). cbn [app]. rewrite E1, E2.
  destruct (l ++ rest) as [|x r] eqn:El; [reflexivity|].
  destruct (Byte.eqb c "0" && (Byte.eqb x "x" || Byte.eqb x "X")) eqn:E.
  - unfold scan_06X. assert (Es : drop_space (c :: x :: r) = c :: x :: r).
    { change (c :: x :: r) with ([c] ++ (x :: r)). apply (drop_space_dig 16); [|congruence]. constructor; [|constructor].
      inversion H; auto. }
    rewrite Es, E1, E2, E. reflexivity.
  - reflexivity.
Qed.

Lemma scan_06X_print z rest : 0 <= z < 16 ^ 6 -> scan_06X (print_06X z ++ rest) = Some (z, rest).
Proof.
  intros Hz. pose proof (print_06X_len6 z Hz) as Hlen. pose proof (print_06X_dig z ltac:(lia)) as Hd.
  rewrite scan_06X_dig; auto; [|intros E; rewrite E in Hlen; discriminate].
  assert (Hmain : scan_digits 16 0 0 6 (print_06X z ++ rest) = (z, 6%nat, rest)).
  { unfold print_06X in *. rewrite app_length, repeat_length, rev_length in Hlen.
    set (ds := digits_lsf 16 xdigit 64 z) in *. rewrite rev_length. rewrite <- app_assoc.
    rewrite scan_zeros by lia. unfold ds. rewrite (scan_printed 16 xdigit); fold ds; try lia.
    - replace (6 - (6 - length ds) - length ds)%nat with O by lia.
      replace (0 + (6 - length ds) + length ds)%nat with 6%nat by lia. cbn [scan_digits]. rewrite Z.mul_0_l. reflexivity.
    - apply xval_xdigit. }
  rewrite Hmain. cbv iota.
  assert (Hv : s32 (sat_ulong z) = z).
  { unfold sat_ulong. replace ((2 ^ 64 <=? z) || (z <=? - 2 ^ 64)) with false by lia. rewrite u64_id by lia. apply s32_id. lia. }
  rewrite Hv. destruct (print_06X z) as [|c [|x l]]; try discriminate. cbn [app].
  inversion Hd as [|? ? _ Hd']; subst. inversion Hd' as [|? ? (d & _ & Hx) _]; subst.
  apply xval_char in Hx. destruct Hx as (_ & _ & _ & -> & ->). rewrite andb_false_r. reflexivity.
Qed.

Lemma scan_06X_cut z p : 0 <= z < 16 ^ 6 -> (exists t, print_06X z = p ++ t) ->
  scan_06X p = None \/ exists v, scan_06X p = Some (v, []).
Proof.
  intros Hz [t Ht]. pose proof (print_06X_len6 z Hz) as Hlen.
  assert (Hd : all_dig 16 p).
  { replace p with (firstn (length p) (print_06X z)).
    - apply all_dig_firstn. apply print_06X_dig. lia.
    - rewrite Ht. rewrite firstn_app, Nat.sub_diag. simpl. rewrite app_nil_r. apply firstn_all. }
  assert (Hl : (length p <= 6)%nat) by (rewrite <- Hlen, Ht, app_length; lia).
  destruct p as [|c p]; [left; reflexivity|].
  pose proof (scan_06X_dig (c :: p) [] Hd ltac:(congruence)) as E. rewrite app_nil_r in E. rewrite E.
  destruct (scan_all_dig 16 (c :: p) 0 0 6 Hd Hl) as [v Hv]. rewrite Hv.
  right. exists (s32 (sat_ulong v)). destruct p as [|x p]; [reflexivity|].
  inversion Hd as [|? ? _ Hd']; subst. inversion Hd' as [|? ? (d & _ & Hx) _]; subst.
  apply xval_char in Hx. destruct Hx as (_ & _ & _ & -> & ->). rewrite andb_false_r. reflexivity.
Qed.

(* A file number of seven or more digits is cut after six, and the next
   character is another digit. *)
Lemma scan_06X_long z rest : 16 ^ 6 <= z < 16 ^ 64 ->
  exists v c r, scan_06X (print_06X z ++ rest) = Some (v, c :: r) /\ xval c <> None.
Proof.
  intros Hz. pose proof (print_06X_dig z ltac:(lia)) as Hd.
  assert (Hlen : (7 <= length (print_06X z))%nat).
  { unfold print_06X. rewrite app_length, repeat_length, rev_length.
    assert (H : forall n fuel z, 16 ^ Z.of_nat n <= z < 16 ^ Z.of_nat fuel -> (n < length (digits_lsf 16 xdigit fuel z))%nat).
    { clear. induction n as [|n IH]; intros fuel z Hz.
      - destruct fuel; [simpl in Hz; lia|]. cbn [digits_lsf length]. lia.
      - destruct fuel; [change (16 ^ Z.of_nat 0) with 1 in Hz; pose proof (Z.pow_pos_nonneg 16 (Z.of_nat (S n))); lia|].
        cbn [digits_lsf length]. rewrite !Nat2Z.inj_succ, !Z.pow_succ_r in Hz by lia.
        destruct (z / 16 =? 0) eqn:E.
        + exfalso. assert (1 <= 16 ^ Z.of_nat n) by (apply (Z.pow_le_mono_r 16 0); lia). lia.
        + specialize (IH fuel (z / 16)). assert (16 ^ Z.of_nat n <= z / 16 < 16 ^ Z.of_nat fuel) by lia. lia. }
    specialize (H 6%nat 64%nat z). change (Z.of_nat 6) with 6 in H. change (Z.of_nat 64) with 64 in H. specialize (H Hz). lia. }
  destruct (print_06X z) as [|c0 [|c1 [|c2 [|c3 [|c4 [|c5 [|c6 l]]]]]]]; try (simpl in Hlen; lia).
  rewrite scan_06X_dig by (auto; congruence).
  repeat match goal with H : all_dig _ (_ :: _) |- _ => inversion H as [|? ? (? & ? & ?) ?]; clear H; subst end.
  repeat match goal with H : Forall _ (_ :: _) |- _ => inversion H as [|? ? (? & ? & ?) ?]; clear H; subst end.
  cbn [app scan_digits].
  repeat match goal with H : xval ?c = Some ?d |- context[xval ?c] => rewrite H end. cbv iota.
  repeat match goal with H : 0 <= ?d < 16 |- context[?d <? 16] => replace (d <? 16) with true by lia end. cbv iota.
  match goal with H : xval c1 = Some _ |- _ => apply xval_char in H as (_ & _ & _ & -> & ->) end.
  rewrite andb_false_r. eexists _, c6, _. split; [reflexivity|]. match goal with H : xval c6 = _ |- _ => rewrite H end. discriminate.
Qed.

(* ------------------------------------------------------------- prefixes *)
Definition pfx (p s : bytes) : Prop := exists t, s = p ++ t.

Lemma pfx_refl s : pfx s s. Proof. exists []. rewrite app_nil_r. reflexivity. Qed.

Lemma pfx_app p : forall x r, pfx p (x ++ r) -> (exists q, p = x ++ q /\ pfx q r) \/ pfx p x.
Proof.
  induction p as [|c p IH]; intros x r [t Ht].
  - right. exists x. reflexivity.
  - destruct x as [|d x].
    + left. exists (c :: p). split; auto. exists t. auto.
    + simpl in Ht. injection Ht as -> Ht. destruct (IH x r (ex_intro _ t Ht)) as [(q & -> & Hq)|[u Hu]].
      * left. exists q. auto.
      * right. exists u. simpl. congruence.
Qed.

Lemma stops_pfx p c r : pfx p (c :: r) -> xval c = None -> stops 10 p.
Proof. intros [t Ht] Hx. destruct p as [|d p]; simpl; auto. injection Ht as <- _. rewrite Hx. auto. Qed.

Lemma drop_space_idem s : drop_space (drop_space s) = drop_space s.
Proof. induction s as [|c s IH]; simpl; auto. destruct (is_space c) eqn:E; auto. simpl. rewrite E. auto. Qed.
Lemma scan_dec_drop s : scan_dec (drop_space s) = scan_dec s.
Proof. unfold scan_dec. rewrite drop_space_idem. auto. Qed.
Lemma scan_06X_drop s : scan_06X (drop_space s) = scan_06X s.
Proof. unfold scan_06X. rewrite drop_space_idem. auto. Qed.

Lemma cut_lit f x p :
  forallb (fun k => match scan_lit f (firstn k x) with None | Some [] => true | _ => false end) (seq 0 (S (length x))) = true ->
  pfx p x -> scan_lit f p = None \/ scan_lit f p = Some [].
Proof.
  intros H [t Ht]. rewrite forallb_forall in H. specialize (H (length p)).
  assert (E : firstn (length p) x = p).
  { rewrite Ht, firstn_app, Nat.sub_diag. simpl. rewrite app_nil_r. apply firstn_all. }
  rewrite E in H. assert (Hin : In (length p) (seq 0 (S (length x)))).
  { apply in_seq. rewrite Ht, app_length. lia. }
  specialize (H Hin). destruct (scan_lit f p) as [[|? ?]|]; auto; discriminate.
Qed.

(* ------------------------------------------------------------- file lines *)
Definition line_text (i sz ck : Z) (next : bytes) : bytes :=
  print_06X i ++ lit ": " ++ print_signed (s64 sz) ++ lit " : "
           ++ print_unsigned ck ++ lit " : " ++ print_unsigned (reduce_sum ck)
           ++ [x0a] ++ next.
Fixpoint lines_text (i : Z) (l : list (Z * Z)) : bytes :=
  match l with
  | [] => []
  | (sz, ck) :: r => line_text i sz ck (lines_text (i + 1) r)
  end.

Lemma header_lines_text b : forall n i, 0 <= i -> (Z.to_nat i + n <= length (b_fsize b))%nat ->
  length (b_fchecksum b) = length (b_fsize b) ->
  header_lines b i n = Ret (lines_text i (firstn n (skipn (Z.to_nat i) (combine (b_fsize b) (b_fchecksum b))))).
Proof.
  induction n as [|n IH]; intros i Hi Hn Hl; [reflexivity|].
  cbn [header_lines]. rewrite !znth_to_nat by auto.
  assert (Hc : (Z.to_nat i < length (combine (b_fsize b) (b_fchecksum b)))%nat) by (rewrite combine_length; lia).
  destruct (nth_error (combine (b_fsize b) (b_fchecksum b)) (Z.to_nat i)) as [[sz ck]|] eqn:E;
    [|apply nth_error_None in E; lia].
  assert (E1 : nth_error (b_fsize b) (Z.to_nat i) = Some sz /\ nth_error (b_fchecksum b) (Z.to_nat i) = Some ck).
  { clear - E. revert E. generalize (Z.to_nat i). generalize (b_fchecksum b). induction (b_fsize b) as [|x l IH]; intros [|y l'] [|k]; simpl; try discriminate.
    - intros H. injection H as <- <-. auto.
    - intros H. apply IH in H. auto. }
  destruct E1 as [-> ->]. cbn [or_ub bind]. rewrite IH by lia. cbn [bind].
  replace (Z.to_nat (i + 1)) with (S (Z.to_nat i)) by lia.
  assert (Es : skipn (Z.to_nat i) (combine (b_fsize b) (b_fchecksum b)) =
               (sz, ck) :: skipn (S (Z.to_nat i)) (combine (b_fsize b) (b_fchecksum b))).
  { clear - E. revert E. generalize (Z.to_nat i). induction (combine (b_fsize b) (b_fchecksum b)) as [|x l IH]; intros [|k]; simpl; try discriminate.
    - intros H. injection H as ->. reflexivity.
    - intros H. apply IH in H. exact H. }
  rewrite Es. cbn [firstn lines_text]. reflexivity.
Qed.

Fixpoint put_from (l : list Z) (i : Z) (vs : list Z) : list Z :=
  match vs with [] => l | v :: r => put_from (upd l (Z.to_nat i) v) (i + 1) r end.
Lemma put_from_length vs : forall l i, length (put_from l i vs) = length l.
Proof. induction vs; intros; simpl; auto. rewrite IHvs. apply upd_length. Qed.

Definition num_ok (x : Z * Z) : Prop := 0 <= fst x < 2 ^ 64 /\ 0 <= snd x < 2 ^ 32.

Lemma scan_td_signed sz rest : 0 <= sz < 2 ^ 64 -> stops 10 rest ->
  scan_td (print_signed (s64 sz) ++ rest) = Some (sz, rest).
Proof.
  intros Hs Hr. unfold scan_td. pose proof (s64_range sz).
  rewrite scan_dec_signed by (auto; lia). f_equal. f_equal. unfold sat_long.
  replace (2 ^ 63 <=? s64 sz) with false by lia. replace (s64 sz <? - 2 ^ 63) with false by lia.
  rewrite u64_s64. apply u64_id. auto.
Qed.
Lemma scan_u_unsigned c rest : 0 <= c < 2 ^ 32 -> stops 10 rest ->
  scan_u (print_unsigned c ++ rest) = Some (c, rest).
Proof.
  intros Hs Hr. unfold scan_u. rewrite scan_dec_unsigned by (auto; lia). f_equal. f_equal. unfold sat_ulong.
  replace ((2 ^ 64 <=? c) || (c <=? - 2 ^ 64)) with false by lia. rewrite u64_id by lia. apply u32_id. auto.
Qed.
Lemma scan_d_signed z rest : - 2 ^ 31 <= z < 2 ^ 31 -> stops 10 rest ->
  scan_d (print_signed z ++ rest) = Some (z, rest).
Proof.
  intros Hs Hr. unfold scan_d. rewrite scan_dec_signed by (auto; lia). f_equal. f_equal. unfold sat_long.
  replace (2 ^ 63 <=? z) with false by lia. replace (z <? - 2 ^ 63) with false by lia. apply s32_id. auto.
Qed.
Lemma scan_td_drop s : scan_td (drop_space s) = scan_td s.
Proof. unfold scan_td. rewrite scan_dec_drop. auto. Qed.
Lemma scan_u_drop s : scan_u (drop_space s) = scan_u s.
Proof. unfold scan_u. rewrite scan_dec_drop. auto. Qed.
Lemma scan_d_drop s : scan_d (drop_space s) = scan_d s.
Proof. unfold scan_d. rewrite scan_dec_drop. auto. Qed.

Lemma reduce_sum_range s : 0 <= s -> 0 <= reduce_sum s < 2 ^ 32.
Proof. intros. unfold reduce_sum. cbv zeta. lia. Qed.

Lemma scan_files_S N fsz fck s n : scan_files N fsz fck s (S n) =
      match scan_06X s with
      | None => Ret None
      | Some (fid, s1) =>
      match scan_lit (lit ": ") s1 with
      | None => Ret None
      | Some s2 =>
      match scan_td s2 with
      | None => Ret None
      | Some (size, s3) =>
      match scan_lit (lit " : ") s3 with
      | None => Ret None
      | Some s4 =>
      match scan_u s4 with
      | None => Ret None
      | Some (ck, s5) =>
      match scan_lit (lit " : ") s5 with
      | None => Ret None
      | Some s6 =>
      match scan_u s6 with
      | None => Ret None
      | Some (_, s7) =>
          if (fid <? 0) || (N <=? fid) then Ret None else
          bind (or_ub OOB (zupd fsz fid size)) (fun fsz' =>
          bind (or_ub OOB (zupd fck fid ck)) (fun fck' =>
          scan_files N fsz' fck' s7 n))
      end end end end end end end.
Proof. reflexivity. Qed.

Lemma scan_06X_nl s : scan_06X (x0a :: s) = scan_06X s.
Proof. rewrite <- scan_06X_drop. rewrite <- (scan_06X_drop s). reflexivity. Qed.

Lemma scan_lit1 q : scan_lit (lit ": ") (lit ": " ++ q) = Some (drop_space q). Proof. reflexivity. Qed.
Lemma scan_lit2 q : scan_lit (lit " : ") (lit " : " ++ q) = Some (drop_space q). Proof. reflexivity. Qed.

Lemma scan_line N fsz fck i sz ck next n : 0 <= i < N -> i < 16 ^ 6 -> num_ok (sz, ck) ->
  (Z.to_nat N < length fsz)%nat -> length fck = length fsz ->
  scan_files N fsz fck (x0a :: line_text i sz ck next) (S n) =
  scan_files N (upd fsz (Z.to_nat i) sz) (upd fck (Z.to_nat i) ck) (x0a :: next) n.
Proof.
  intros Hi HN [Hs Hc] Hl Hl2. simpl fst in Hs. simpl snd in Hc. rewrite scan_files_S. unfold line_text.
  rewrite scan_06X_nl, scan_06X_print by lia. rewrite scan_lit1, scan_td_drop.
  rewrite scan_td_signed by (auto; simpl; auto). rewrite scan_lit2, scan_u_drop.
  rewrite scan_u_unsigned by (auto; simpl; auto). rewrite scan_lit2, scan_u_drop.
  pose proof (reduce_sum_range ck ltac:(lia)).
  rewrite scan_u_unsigned by (auto; simpl; auto).
  replace ((i <? 0) || (N <=? i)) with false by lia. cbv iota.
  rewrite !zupd_some by (unfold zlen; lia). cbn [or_ub bind]. reflexivity.
Qed.

Lemma scan_lines N l r m : forall i fsz fck, 0 <= i -> i + zlen l <= N -> i + zlen l <= 16 ^ 6 -> Forall num_ok l ->
  (Z.to_nat N < length fsz)%nat -> length fck = length fsz ->
  scan_files N fsz fck (x0a :: lines_text i (l ++ r)) (length l + m) =
  scan_files N (put_from fsz i (map fst l)) (put_from fck i (map snd l)) (x0a :: lines_text (i + zlen l) r) m.
Proof.
  induction l as [|[sz ck] l IH]; intros i fsz fck Hi HN H6 Hok Hl Hl2.
  - simpl. replace (i + zlen []) with i by (unfold zlen; simpl; lia). reflexivity.
  - inversion Hok; subst. rewrite zlen_cons in *. pose proof (zlen_nonneg l). cbn [app lines_text length Nat.add].
    rewrite scan_line by (auto; lia). rewrite IH; auto; try lia.
    + cbn [map fst snd put_from]. replace (i + (1 + zlen l)) with (i + 1 + zlen l) by lia. reflexivity.
    + rewrite upd_length. auto.
    + rewrite !upd_length. auto.
Qed.

(* A prefix of the lines: failure, or the same result. *)
Lemma cut_scan_dec_td p : (scan_dec p = None \/ exists v, scan_dec p = Some (v, [])) ->
  scan_td p = None \/ exists v, scan_td p = Some (v, []).
Proof. unfold scan_td. intros [->|[v ->]]; eauto. Qed.
Lemma cut_scan_dec_u p : (scan_dec p = None \/ exists v, scan_dec p = Some (v, [])) ->
  scan_u p = None \/ exists v, scan_u p = Some (v, []).
Proof. unfold scan_u. intros [->|[v ->]]; eauto. Qed.
Lemma cut_scan_dec_d p : (scan_dec p = None \/ exists v, scan_dec p = Some (v, [])) ->
  scan_d p = None \/ exists v, scan_d p = Some (v, []).
Proof. unfold scan_d. intros [->|[v ->]]; eauto. Qed.

Lemma scan_lines_cut N l : forall i fsz fck p, 0 <= i -> i + zlen l <= N -> N <= 16 ^ 6 -> Forall num_ok l ->
  (Z.to_nat N < length fsz)%nat -> length fck = length fsz ->
  pfx p (x0a :: lines_text i l) ->
  scan_files N fsz fck p (length l) = Ret None \/
  scan_files N fsz fck p (length l) = Ret (Some (put_from fsz i (map fst l), put_from fck i (map snd l))).
Proof.
  induction l as [|[sz ck] l IH]; intros i fsz fck p Hi HN H6 Hok Hl Hl2 Hp; [right; reflexivity|].
  inversion Hok as [|? ? [Hs Hc] Hok']; subst. simpl fst in Hs. simpl snd in Hc.
  rewrite zlen_cons in *. pose proof (zlen_nonneg l). cbn [lines_text length] in *.
  rewrite scan_files_S. unfold line_text in Hp.
  destruct p as [|c p]; [left; reflexivity|]. destruct Hp as [t Ht]. injection Ht as <- Ht.
  assert (Hp : pfx p (print_06X i ++ lit ": " ++ print_signed (s64 sz) ++ lit " : " ++ print_unsigned ck ++
       lit " : " ++ print_unsigned (reduce_sum ck) ++ [x0a] ++ lines_text (i + 1) l)) by (exists t; exact Ht).
  clear Ht t. rewrite scan_06X_nl.
  apply pfx_app in Hp. destruct Hp as [(q & -> & Hp)|Hp].
  2:{ left. destruct (scan_06X_cut i p ltac:(lia) Hp) as [->|[v ->]]; reflexivity. }
  rewrite scan_06X_print by lia.
  apply pfx_app in Hp. destruct Hp as [(p & -> & Hp)|Hp].
  2:{ left. destruct (cut_lit (lit ": ") (lit ": ") q ltac:(reflexivity) Hp) as [->| ->]; reflexivity. }
  rewrite scan_lit1, scan_td_drop.
  apply pfx_app in Hp. destruct Hp as [(q & -> & Hp)|Hp].
  2:{ left. destruct (cut_scan_dec_td p (scan_dec_cut_signed _ p Hp)) as [->|[v ->]]; reflexivity. }
  rewrite scan_td_signed; [|auto|eapply stops_pfx; [exact Hp|reflexivity]].
  apply pfx_app in Hp. destruct Hp as [(p & -> & Hp)|Hp].
  2:{ left. destruct (cut_lit (lit " : ") (lit " : ") q ltac:(reflexivity) Hp) as [->| ->]; reflexivity. }
  rewrite scan_lit2, scan_u_drop.
  apply pfx_app in Hp. destruct Hp as [(q & -> & Hp)|Hp].
  2:{ left. destruct (cut_scan_dec_u p (scan_dec_cut_unsigned ck p ltac:(lia) Hp)) as [->|[v ->]]; reflexivity. }
  rewrite scan_u_unsigned; [|auto|eapply stops_pfx; [exact Hp|reflexivity]].
  apply pfx_app in Hp. destruct Hp as [(p & -> & Hp)|Hp].
  2:{ left. destruct (cut_lit (lit " : ") (lit " : ") q ltac:(reflexivity) Hp) as [->| ->]; reflexivity. }
  rewrite scan_lit2, scan_u_drop.
  pose proof (reduce_sum_range ck ltac:(lia)) as Hrs.
  assert (Hfin : (scan_u p = None \/ exists v, scan_u p = Some (v, [])) \/
                 exists q, pfx q ([x0a] ++ lines_text (i + 1) l) /\ exists v, scan_u p = Some (v, q)).
  { apply pfx_app in Hp. destruct Hp as [(q & -> & Hp)|Hp].
    - right. exists q. split; auto. exists (reduce_sum ck). apply scan_u_unsigned; auto.
      eapply stops_pfx; [exact Hp|reflexivity].
    - left. exact (cut_scan_dec_u p (scan_dec_cut_unsigned (reduce_sum ck) p ltac:(lia) Hp)). }
  assert (Hrest : forall q, pfx q ([x0a] ++ lines_text (i + 1) l) ->
    (if (i <? 0) || (N <=? i) then Ret None
     else bind (or_ub OOB (zupd fsz i sz)) (fun fsz' => bind (or_ub OOB (zupd fck i ck)) (fun fck' => scan_files N fsz' fck' q (length l)))) = Ret None \/
    (if (i <? 0) || (N <=? i) then Ret None
     else bind (or_ub OOB (zupd fsz i sz)) (fun fsz' => bind (or_ub OOB (zupd fck i ck)) (fun fck' => scan_files N fsz' fck' q (length l)))) =
    Ret (Some (put_from fsz i (map fst ((sz, ck) :: l)), put_from fck i (map snd ((sz, ck) :: l))))).
  { intros q Hq. replace ((i <? 0) || (N <=? i)) with false by lia. cbv iota.
    rewrite !zupd_some by (unfold zlen; lia). cbn [or_ub bind map fst snd put_from].
    apply IH; auto; try lia; rewrite ?upd_length; auto. }
  destruct Hfin as [[->|[v ->]]|(q & Hq & v & ->)]; [left; reflexivity| |exact (Hrest q Hq)].
  apply Hrest. exists ([x0a] ++ lines_text (i + 1) l). reflexivity.
Qed.

Lemma put_from_app : forall vs (a b : list Z), (length vs <= length b)%nat ->
  put_from (a ++ b) (zlen a) vs = a ++ vs ++ skipn (length vs) b.
Proof.
  induction vs as [|v vs IH]; intros a b Hl; cbn [put_from]; [reflexivity|].
  destruct b as [|x b]; [simpl in Hl; lia|].
  assert (E : upd (a ++ x :: b) (Z.to_nat (zlen a)) v = (a ++ [v]) ++ b).
  { unfold zlen. rewrite Nat2Z.id. rewrite <- app_assoc. clear. induction a as [|y a IHa]; simpl; [reflexivity|f_equal; exact IHa]. }
  rewrite E. replace (zlen a + 1) with (zlen (a ++ [v])) by (rewrite zlen_app; unfold zlen; simpl; lia).
  rewrite IH by (simpl in Hl; lia). rewrite <- app_assoc. reflexivity.
Qed.

Lemma put_zeros vs : put_from (repeat 0 (S (length vs))) 0 vs = vs ++ [0].
Proof.
  pose proof (put_from_app vs [] (repeat 0 (S (length vs))) ltac:(rewrite repeat_length; lia)) as H.
  change ([] ++ repeat 0 (S (length vs))) with (repeat 0 (S (length vs))) in H. change (zlen (@nil Z)) with 0 in H.
  rewrite H. change ([] ++ ?x) with x. cbn [app]. f_equal.
  assert (E : forall n, skipn n (repeat 0 (S n)) = [0]) by (induction n; [reflexivity|simpl in *; auto]). apply E.
Qed.

(* ------------------------------------------------------------- whole header *)
(* Characters a dtype may consist of to survive the header. *)
Definition plain_dtype (d : bytes) : Prop :=
  dtype_isvalid d = true /\ (length d <= 7)%nat /\ Forall (fun c => is_space c = false /\ c <> x00) d.

Definition header_text (d : bytes) (nmemb N : Z) (l : list (Z * Z)) : bytes :=
  lit "DTYPE: " ++ d ++ (x0a :: lit "NMEMB: ") ++ print_signed nmemb ++ (x0a :: lit "NFILE: ") ++ print_signed N ++ (x0a :: lines_text 0 l).

Lemma token_app d q : Forall (fun c => is_space c = false /\ c <> x00) d ->
  token (d ++ x0a :: q) = (d, x0a :: q).
Proof. induction 1 as [|c d [Hc _] Hd IH]; [reflexivity|]. simpl. rewrite Hc, IH. reflexivity. Qed.
Lemma token_all d : Forall (fun c => is_space c = false /\ c <> x00) d -> token d = (d, []).
Proof. induction 1 as [|c d [Hc _] Hd IH]; [reflexivity|]. simpl. rewrite Hc, IH. reflexivity. Qed.
Lemma until_nul_id d : Forall (fun c => is_space c = false /\ c <> x00) d -> until_nul d = d.
Proof.
  unfold until_nul. induction 1 as [|c d [_ Hc] Hd IH]; [reflexivity|]. apply byte_eqb_neq in Hc. rewrite Hc, IH. reflexivity.
Qed.
Lemma drop_space_dt d q : d <> [] -> Forall (fun c => is_space c = false /\ c <> x00) d -> drop_space (d ++ q) = d ++ q.
Proof. intros Hn H. destruct H as [|c d [Hc _] Hd]; [congruence|]. simpl. rewrite Hc. reflexivity. Qed.

Lemma isvalid_nonnil d : dtype_isvalid d = true -> d <> [].
Proof. destruct d; [discriminate|congruence]. Qed.

Lemma scan_s_dt d q : plain_dtype d -> scan_s (d ++ x0a :: q) = Some (d, x0a :: q).
Proof.
  intros (Hv & _ & Hp). pose proof (isvalid_nonnil d Hv). unfold scan_s. rewrite drop_space_dt, token_app by auto.
  destruct d; [congruence|reflexivity].
Qed.

Lemma scan_s_dt' d a q : plain_dtype d -> scan_s (d ++ (x0a :: a) ++ q) = Some (d, (x0a :: a) ++ q).
Proof. exact (scan_s_dt d (a ++ q)). Qed.
Lemma scan_DT q : scan_lit (lit " DTYPE: ") (lit "DTYPE: " ++ q) = Some (drop_space q). Proof. reflexivity. Qed.
Lemma scan_NM q : scan_lit (lit " NMEMB: ") ((x0a :: lit "NMEMB: ") ++ q) = Some (drop_space q). Proof. reflexivity. Qed.
Lemma scan_NF q : scan_lit (lit " NFILE: ") ((x0a :: lit "NFILE: ") ++ q) = Some (drop_space q). Proof. reflexivity. Qed.

Definition hdr_ok (d : bytes) (nmemb : Z) (l : list (Z * Z)) : Prop :=
  plain_dtype d /\ 0 <= nmemb < 2 ^ 31 /\ Forall num_ok l.

Lemma parse_header_text d nmemb l : hdr_ok d nmemb l -> zlen l <= 16 ^ 6 ->
  parse_header (header_text d nmemb (zlen l) l) =
  Ret (Some (mkHdr d nmemb (zlen l) (map fst l ++ [0]) (map snd l ++ [0]))).
Proof.
  intros ((Hv & Hlen & Hp) & Hn & Hok) HN. pose proof (zlen_nonneg l) as Hzl. unfold header_text, parse_header.
  rewrite scan_DT.
  cbv iota. rewrite drop_space_dt by (auto using isvalid_nonnil).
  rewrite scan_s_dt' by (split; auto). cbv iota.
  destruct (8 <=? length d)%nat eqn:E8; [lia|].
  rewrite scan_NM.
  cbv iota. rewrite scan_d_drop, scan_d_signed by (try lia; simpl; auto).
  rewrite scan_NF.
  cbv iota. rewrite scan_d_drop, scan_d_signed by (try lia; simpl; auto).
  replace ((zlen l <? 0) || (2 ^ 31 - 2 <=? zlen l)) with false by lia. cbv iota.
  replace (nmemb <? 0) with false by lia. cbv iota.
  rewrite until_nul_id by auto. rewrite Hv. cbn [negb]. cbv iota zeta.
  replace (Z.to_nat (zlen l)) with (length l) by (unfold zlen; lia).
  pose proof (scan_lines (zlen l) l [] 0 0 (repeat 0 (S (length l))) (repeat 0 (S (length l)))) as H.
  rewrite app_nil_r, Nat.add_0_r in H. rewrite H; auto; try lia; rewrite ?repeat_length; auto.
  2:{ unfold zlen. lia. }
  cbn [scan_files bind].
  rewrite <- (map_length fst l) at 1. rewrite put_zeros.
  rewrite <- (map_length snd l) at 1. rewrite put_zeros. reflexivity.
Qed.

Lemma parse_header_cut d nmemb l p : hdr_ok d nmemb l -> zlen l <= 16 ^ 6 ->
  pfx p (header_text d nmemb (zlen l) l) ->
  parse_header p = Ret None \/
  parse_header p = Ret (Some (mkHdr d nmemb (zlen l) (map fst l ++ [0]) (map snd l ++ [0]))).
Proof.
  intros ((Hv & Hlen & Hpl) & Hn & Hok) HN Hp. pose proof (zlen_nonneg l) as Hzl. unfold header_text in Hp. unfold parse_header.
  apply pfx_app in Hp. destruct Hp as [(q & -> & Hp)|Hp].
  2:{ left. destruct (cut_lit (lit " DTYPE: ") (lit "DTYPE: ") p ltac:(reflexivity) Hp) as [->| ->]; reflexivity. }
  change (scan_lit (lit " DTYPE: ") (lit "DTYPE: " ++ q)) with (Some (drop_space q)). cbv iota.
  apply pfx_app in Hp. destruct Hp as [(p & -> & Hp)|[t Ht]].
  2:{ left. assert (Hq : Forall (fun c => is_space c = false /\ c <> x00) q).
      { rewrite Ht in Hpl. apply Forall_app in Hpl. apply Hpl. }
      assert (Hql : (length q <= 7)%nat) by (rewrite Ht, app_length in Hlen; lia).
      unfold scan_s. rewrite drop_space_idem.
      destruct q as [|c q]; [reflexivity|].
      pose proof (drop_space_dt (c :: q) [] ltac:(congruence) Hq) as Hdd. rewrite app_nil_r in Hdd. rewrite Hdd.
      rewrite token_all by auto. destruct (8 <=? length (c :: q))%nat eqn:E8; [lia|]. reflexivity. }
  rewrite drop_space_dt by (auto using isvalid_nonnil).
  destruct p as [|c p].
  { left. rewrite app_nil_r. unfold scan_s.
    pose proof (drop_space_dt d [] (isvalid_nonnil d Hv) Hpl) as Hdd. rewrite app_nil_r in Hdd. rewrite Hdd.
    rewrite token_all by auto. destruct d as [|c d]; [reflexivity|].
    destruct (8 <=? length (c :: d))%nat eqn:E8; [lia|]. reflexivity. }
  assert (c = x0a) by (destruct Hp as [t Ht]; injection Ht; auto). subst c.
  rewrite scan_s_dt by (split; auto). cbv iota.
  destruct (8 <=? length d)%nat eqn:E8; [lia|].
  apply pfx_app in Hp. destruct Hp as [(q & E & Hp)|Hp].
  2:{ left. destruct (cut_lit (lit " NMEMB: ") (x0a :: lit "NMEMB: ") (x0a :: p) ltac:(reflexivity) Hp) as [->| ->]; reflexivity. }
  rewrite E. rewrite scan_NM. clear E p.
  cbv iota. rewrite scan_d_drop.
  apply pfx_app in Hp. destruct Hp as [(p & -> & Hp)|Hp].
  2:{ left. destruct (cut_scan_dec_d q (scan_dec_cut_signed _ q Hp)) as [->|[v ->]]; reflexivity. }
  rewrite scan_d_signed; [|lia|eapply stops_pfx; [exact Hp|reflexivity]].
  apply pfx_app in Hp. destruct Hp as [(q & -> & Hp)|Hp].
  2:{ left. destruct (cut_lit (lit " NFILE: ") (x0a :: lit "NFILE: ") p ltac:(reflexivity) Hp) as [->| ->]; reflexivity. }
  rewrite scan_NF.
  cbv iota. rewrite scan_d_drop.
  apply pfx_app in Hp. destruct Hp as [(p & -> & Hp)|Hp].
  2:{ (* cut inside the number of files *)
      destruct Hp as [t Ht]. unfold print_signed in Ht. replace (zlen l <? 0) with false in Ht by lia.
      assert (Hd : all_dig 10 q).
      { replace q with (firstn (length q) (print_unsigned (zlen l))).
        - apply all_dig_firstn. apply print_unsigned_dig. lia.
        - rewrite Ht. rewrite firstn_app, Nat.sub_diag. simpl. rewrite app_nil_r. apply firstn_all. }
      destruct t as [|c t].
      - rewrite app_nil_r in Ht. subst q.
        pose proof (scan_d_signed (zlen l) [] ltac:(lia) I) as E. rewrite app_nil_r in E.
        unfold print_signed in E. replace (zlen l <? 0) with false in E by lia. rewrite E.
        replace ((zlen l <? 0) || (2 ^ 31 - 2 <=? zlen l)) with false by lia. cbv iota.
        replace (nmemb <? 0) with false by lia. cbv iota.
        rewrite until_nul_id by auto. rewrite Hv. cbn [negb]. cbv iota zeta.
        destruct l as [|x l]; [right; reflexivity|left]. rewrite zlen_cons.
        pose proof (zlen_nonneg l). replace (Z.to_nat (1 + zlen l)) with (S (Z.to_nat (zlen l))) by lia. reflexivity.
      - left. destruct (scan_dec_cut q Hd) as [E|[v E]]; unfold scan_d; rewrite E; [reflexivity|].
        set (n := s32 (sat_long v)). destruct ((n <? 0) || (2 ^ 31 - 2 <=? n)) eqn:En; [reflexivity|].
        replace (nmemb <? 0) with false by lia. cbv iota. rewrite until_nul_id by auto. rewrite Hv. cbn [negb]. cbv iota zeta.
        assert (Hn0 : n <> 0).
        { pose proof (scan_d_cut_pos (zlen l) q c t n [] ltac:(lia) Ht) as Hpos.
          unfold scan_d in Hpos. rewrite E in Hpos. specialize (Hpos eq_refl). lia. }
        assert (Hnp : exists k, Z.to_nat n = S k) by (exists (Z.to_nat n - 1)%nat; lia).
        destruct Hnp as [k ->]. reflexivity. }
  rewrite scan_d_signed; [|lia|eapply stops_pfx; [exact Hp|reflexivity]].
  replace ((zlen l <? 0) || (2 ^ 31 - 2 <=? zlen l)) with false by lia. cbv iota.
  replace (nmemb <? 0) with false by lia. cbv iota.
  rewrite until_nul_id by auto. rewrite Hv. cbn [negb]. cbv iota zeta.
  replace (Z.to_nat (zlen l)) with (length l) by (unfold zlen; lia).
  pose proof (scan_lines_cut (zlen l) l 0 (repeat 0 (S (length l))) (repeat 0 (S (length l))) p) as H.
  destruct H as [H|H]; auto; try lia; rewrite ?repeat_length; auto; [unfold zlen; lia| |]; rewrite H; cbn [bind]; [left; reflexivity|right].
  rewrite <- (map_length fst l) at 1. rewrite put_zeros.
  rewrite <- (map_length snd l) at 1. rewrite put_zeros. reflexivity.
Qed.
