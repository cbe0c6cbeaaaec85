(* Facts about element conversions. *)
From Coq.Strings Require Import Byte String.
From Coq Require Import List ZArith Lia Bool ZifyBool ZifyNat.
From Verif Require Import Base BaseFacts Dtype Cast Array FS Block Spec CastSpec.
Import ListNotations.
Open Scope Z_scope.
Ltac Zify.zify_post_hook ::= Z.div_mod_to_equations.

(* ------------------------------------------------------------------ *)
(* Byte order. *)
Definition ordered (d : bytes) : Prop := exists c r, d = c :: r /\ (c = "<"%byte \/ c = ">"%byte).

Lemma bits_native me d v : ordered d -> nat_val me (reorder me d v) = elem_bits d v.
Proof.
  intros (c & r & -> & [-> | ->]); destruct me; unfold reorder, elem_bits; cbn [dt_native machine_char]; simpl; rewrite ?rev_involutive; reflexivity.
Qed.
Lemma bits_enc me d n z : ordered d -> elem_bits d (reorder me d (nat_enc me n z)) = z mod 256 ^ Z.of_nat n.
Proof.
  intros (c & r & -> & [-> | ->]); destruct me; unfold reorder, elem_bits; cbn [dt_native machine_char nat_enc]; simpl;
    rewrite ?rev_involutive; apply le_val_enc.
Qed.
Lemma bits_range d v : ordered d -> 0 <= elem_bits d v < 256 ^ Z.of_nat (length v).
Proof.
  intros (c & r & -> & [-> | ->]); unfold elem_bits; simpl; [apply le_val_range|].
  rewrite <- (rev_length v). apply le_val_range.
Qed.
Lemma reorder_len me d v : length (reorder me d v) = length v.
Proof. unfold reorder. destruct (dt_native me d); auto. apply rev_length. Qed.
Lemma nat_enc_len me n z : length (nat_enc me n z) = n.
Proof. destruct me; simpl; rewrite ?rev_length; apply le_enc_length. Qed.
Lemma bits_inj d v v' : ordered d -> length v = length v' -> elem_bits d v = elem_bits d v' -> v = v'.
Proof.
  intros (c & r & -> & [-> | ->]) Hl; unfold elem_bits; simpl; intros H.
  - apply le_val_inj; auto.
  - apply le_val_inj in H; [|rewrite !rev_length; auto]. apply (f_equal (@rev byte)) in H. rewrite !rev_involutive in H. auto.
Qed.
(* between two orders of the same type *)
Lemma bits_reorder2 me sd dd v : ordered sd -> ordered dd ->
  elem_bits dd (reorder me dd (reorder me sd v)) = elem_bits sd v.
Proof.
  intros (c & r & -> & [-> | ->]) (c' & r' & -> & [-> | ->]); destruct me; unfold reorder, elem_bits; cbn [dt_native machine_char]; simpl;
    rewrite ?rev_involutive; reflexivity.
Qed.

(* ------------------------------------------------------------------ *)
(* Scalar conversion of one element. *)
Definition sty_type (d : bytes) (t : sty) : Prop :=
  ordered d /\ sty_of (suffix d) = Some t /\
  bytes_eqb (suffix d) (lit "c8") = false /\ bytes_eqb (suffix d) (lit "c16") = false.

Lemma scalar_conv me sd dd ts td v z : sty_type sd ts -> sty_type dd td -> td <> B1 -> suffix dd <> suffix sd ->
  scalar_bits td ts (elem_bits sd v) = Ret z ->
  exists r, converts me sd dd v r /\ length r = sty_size td /\ elem_bits dd r = z mod 256 ^ Z.of_nat (sty_size td).
Proof.
  intros (O1 & S1 & _) (O2 & S2 & C1 & C2) Hb Hne Hz. unfold converts, conv_elem.
  destruct (bytes_eqb (suffix dd) (suffix sd)) eqn:E; [exfalso; apply bytes_eqb_eq in E; auto|].
  unfold cast_table. rewrite C1, C2, S1, S2.
  assert (Hs : scalar_cast me td ts (reorder me sd v) = Ret (nat_enc me (sty_size td) z)).
  { unfold scalar_cast. rewrite bits_native by auto. rewrite Hz. reflexivity. }
  exists (reorder me dd (nat_enc me (sty_size td) z)). split; [|split].
  - destruct td; try congruence; rewrite Hs; reflexivity.
  - rewrite reorder_len, nat_enc_len. reflexivity.
  - apply bits_enc. auto.
Qed.

Lemma converts_same me sd dd v : suffix dd = suffix sd -> converts me sd dd v (reorder me dd (reorder me sd v)).
Proof. intros H. unfold converts, conv_elem. rewrite H, bytes_eqb_refl. reflexivity. Qed.

(* ------------------------------------------------------------------ *)
(* C22: integers *)
Lemma int_sty d w s : int_type d w s -> exists t, sty_type d t /\ sty_kind t = KInt s /\ w = 8 * Z.of_nat (sty_size t) /\
  (t = B1 -> suffix d = lit "b1").
Proof.
  intros H; inversion H as [c Hc|c Hc|c Hc|c Hc|c Hc]; subst;
    [exists I4|exists I8|exists U4|exists U8|exists B1];
    (split; [split; [eexists _, _; split; [reflexivity|exact Hc]|split; [reflexivity|split; reflexivity]]|]);
    (split; [reflexivity|]); (split; [reflexivity|]); intros HH; (discriminate HH || reflexivity).
Qed.

Lemma int_value_of d w s t v : int_type d w s -> w = 8 * Z.of_nat (sty_size t) ->
  int_of_bits s (sty_size t) (elem_bits d v) = int_value d w s v.
Proof. intros _ ->. reflexivity. Qed.

Lemma int_value_range d w s v : int_type d w s -> length v = Z.to_nat (w / 8) -> in_type w s (int_value d w s v).
Proof.
  intros H Hl. assert (O : ordered d) by (inversion H; subst; eexists _, _; split; try reflexivity; auto).
  pose proof (bits_range d v O) as R. rewrite Hl in R.
  unfold int_value, in_type. inversion H; subst;
  match type of R with context [256 ^ Z.of_nat ?x] => let y := eval vm_compute in (256 ^ Z.of_nat x) in change (256 ^ Z.of_nat x) with y in R end;
  change (2 ^ (32 - 1)) with 2147483648; change (2 ^ (64 - 1)) with 9223372036854775808; change (2 ^ (8 - 1)) with 128;
  change (2 ^ 32) with 4294967296; change (2 ^ 64) with 18446744073709551616; change (2 ^ 8) with 256;
  destruct (_ <=? _) eqn:E; cbn [andb]; lia.
Qed.
Lemma int_value_mod d w s v : int_value d w s v mod 2 ^ w = elem_bits d v mod 2 ^ w.
Proof.
  unfold int_value. destruct (_ && _); auto. rewrite <- (Z_mod_plus_full (elem_bits d v - 2 ^ w) 1 (2 ^ w)). f_equal. lia.
Qed.
Lemma in_type_unique w s a b : 0 < w -> in_type w s a -> in_type w s b -> a mod 2 ^ w = b mod 2 ^ w -> a = b.
Proof.
  intros Hw. unfold in_type. assert (Hp : 2 ^ w = 2 * 2 ^ (w - 1)) by (rewrite <- Z.pow_succ_r by lia; f_equal; lia).
  assert (0 < 2 ^ (w - 1)) by (apply Z.pow_pos_nonneg; lia).
  intros Ha Hb Hm. 
  assert (Hd : exists k, a - b = 2 ^ w * k).
  { exists (a / 2 ^ w - b / 2 ^ w). pose proof (Z.div_mod a (2 ^ w)). pose proof (Z.div_mod b (2 ^ w)). nia. }
  destruct Hd as [k Hk]. assert (k = 0); [|nia]. destruct s; nia.
Qed.

Lemma int_convert me sd ws ss dd wd sg v :
  int_type sd ws ss -> int_type dd wd sg -> (suffix dd = lit "b1" -> suffix sd = lit "b1") ->
  length v = Z.to_nat (ws / 8) ->
  exists r, converts me sd dd v r /\ length r = Z.to_nat (wd / 8) /\ in_type wd sg (int_value dd wd sg r) /\
    int_value dd wd sg r mod 2 ^ wd = int_value sd ws ss v mod 2 ^ wd.
Proof.
  intros Hs Hd Hb Hl.
  destruct (int_sty _ _ _ Hs) as (ts & Ts & Ks & Ws & _). destruct (int_sty _ _ _ Hd) as (td & Td & Kd & Wd & Bd).
  destruct (bytes_eqb (suffix dd) (suffix sd)) eqn:E.
  - apply bytes_eqb_eq in E. exists (reorder me dd (reorder me sd v)). split; [apply converts_same; auto|].
    assert (Hw : ws = wd /\ ss = sg).
    { destruct Ts as (_ & T1 & _), Td as (_ & T2 & _). rewrite E in T2. rewrite T1 in T2. injection T2 as <-.
      split; [lia|]. rewrite Ks in Kd. injection Kd. auto. }
    destruct Hw as [-> ->].
    assert (HL : length (reorder me dd (reorder me sd v)) = Z.to_nat (wd / 8)) by (rewrite !reorder_len; auto).
    split; [exact HL|]. split; [apply int_value_range; auto|].
    rewrite !int_value_mod. f_equal. apply bits_reorder2; [apply Ts|apply Td].
  - assert (Hne : suffix dd <> suffix sd) by (intro HH; rewrite HH, bytes_eqb_refl in E; discriminate E).
    assert (HtB : td <> B1).
    { intros ->. specialize (Bd eq_refl). specialize (Hb Bd). congruence. }
    destruct (scalar_conv me sd dd ts td v (int_of_bits ss (sty_size ts) (elem_bits sd v) mod 2 ^ (8 * Z.of_nat (sty_size td))) Ts Td HtB Hne)
      as (r & C & L & B).
    { unfold scalar_bits. rewrite Kd, Ks. reflexivity. }
    assert (HL : length r = Z.to_nat (wd / 8)) by lia.
    exists r. split; [exact C|]. split; [exact HL|]. split; [apply int_value_range; auto|].
    rewrite int_value_mod, B. replace 256 with (2 ^ 8) by reflexivity. rewrite <- Z.pow_mul_r by lia. rewrite <- Wd.
    rewrite !Z.mod_mod by (apply Z.pow_nonzero; lia). rewrite (int_value_of sd ws ss ts v Hs Ws). reflexivity.
Qed.

Lemma int_convert_keeps me sd ws ss dd wd sg v :
  int_type sd ws ss -> int_type dd wd sg -> (suffix dd = lit "b1" -> suffix sd = lit "b1") ->
  length v = Z.to_nat (ws / 8) -> in_type wd sg (int_value sd ws ss v) ->
  exists r, converts me sd dd v r /\ length r = Z.to_nat (wd / 8) /\ int_value dd wd sg r = int_value sd ws ss v.
Proof.
  intros Hs Hd Hb Hl Hin. destruct (int_convert me sd ws ss dd wd sg v Hs Hd Hb Hl) as (r & C & L & R & M).
  exists r. split; [exact C|]. split; [exact L|]. apply (in_type_unique wd sg); auto. inversion Hd; lia.
Qed.

Lemma int_value_inj d w s v v' : int_type d w s -> length v = Z.to_nat (w / 8) -> length v' = Z.to_nat (w / 8) ->
  int_value d w s v = int_value d w s v' -> v = v'.
Proof.
  intros H L L' E. assert (O : ordered d) by (inversion H; subst; eexists _, _; split; try reflexivity; auto).
  apply (bits_inj d); auto; [congruence|].
  apply (f_equal (fun z => z mod 2 ^ w)) in E. rewrite !int_value_mod in E.
  assert (Hp : 256 ^ Z.of_nat (Z.to_nat (w / 8)) = 2 ^ w).
  { inversion H; subst; reflexivity. }
  pose proof (bits_range d v O) as R. pose proof (bits_range d v' O) as R'. rewrite L in R. rewrite L' in R'. rewrite Hp in R, R'.
  rewrite !Z.mod_small in E by auto. exact E.
Qed.

Lemma mod_mod_pow z a b : 0 <= a <= b -> (z mod 2 ^ b) mod 2 ^ a = z mod 2 ^ a.
Proof.
  intros H. symmetry. apply Znumtheory.Zmod_div_mod; [apply Z.pow_pos_nonneg; lia|apply Z.pow_pos_nonneg; lia|].
  exists (2 ^ (b - a)). rewrite <- Z.pow_add_r by lia. f_equal. lia.
Qed.
(* a round trip through a type that is at least as wide *)
Lemma int_round_trip me sd ws ss dd wd sg v :
  int_type sd ws ss -> int_type dd wd sg -> suffix dd <> lit "b1" -> suffix sd <> lit "b1" ->
  length v = Z.to_nat (ws / 8) -> ws <= wd ->
  exists r, converts me sd dd v r /\ converts me dd sd r v.
Proof.
  intros Hs Hd Hb Hb' Hl Hw.
  destruct (int_convert me sd ws ss dd wd sg v Hs Hd ltac:(intros; contradiction) Hl) as (r & C & L & _ & V).
  exists r. split; [exact C|].
  destruct (int_convert me dd wd sg sd ws ss r Hd Hs ltac:(intros; contradiction) L) as (v' & C' & L' & R' & V').
  assert (Hp : 0 < ws) by (inversion Hs; lia).
  rewrite <- (int_value_inj sd ws ss v' v Hs L' Hl); [exact C'|].
  apply (in_type_unique ws ss); auto; [apply int_value_range; auto|].
  rewrite V'. rewrite <- (mod_mod_pow _ ws wd) by lia. rewrite V. apply mod_mod_pow. lia.
Qed.

(* ------------------------------------------------------------------ *)
(* Floating point formats. *)
Lemma pow_split a b c : c <= b <= a -> 2 ^ (a - c) = 2 ^ (a - b) * 2 ^ (b - c).
Proof. intros H. rewrite <- Z.pow_add_r by lia. f_equal. lia. Qed.
Lemma mul_pow_split m a b c : c <= b <= a -> m * 2 ^ (a - b) * 2 ^ (b - c) = m * 2 ^ (a - c).
Proof. intros H. rewrite (pow_split a b c H). ring. Qed.
Lemma pow_double a b : b < a -> 2 ^ (a - b) = 2 * 2 ^ (a - 1 - b).
Proof. intros H. rewrite <- Z.pow_succ_r by lia. f_equal. lia. Qed.

Section Fmt.
  Variable f : ffmt.
  Hypothesis Hmw : 0 < f_mw f.
  Hypothesis Hew : 2 <= f_ew f.
  Let mw := f_mw f.
  Let P := 2 ^ mw.
  Lemma P_pos : 0 < P. Proof. apply Z.pow_pos_nonneg; unfold mw; lia. Qed.
  Lemma P_ge2 : 2 <= P.
  Proof. unfold P. replace 2 with (2 ^ 1) at 1 by reflexivity. apply Z.pow_le_mono_r; unfold mw; lia. Qed.
  Lemma E_ge4 : 4 <= 2 ^ f_ew f.
  Proof. replace 4 with (2 ^ 2) by reflexivity. apply Z.pow_le_mono_r; lia. Qed.
  Lemma sign_eq : f_signbit f = 2 ^ f_ew f * P.
  Proof. unfold f_signbit, P, mw. rewrite Z.add_comm. apply Z.pow_add_r; lia. Qed.
  Lemma inf_eq : f_infbits f = (2 ^ f_ew f - 1) * P.
  Proof. reflexivity. Qed.

  Definition enc (m e : Z) : Z := (e - f_emin f) * P + m.
  Record canon (m e : Z) : Prop := {
    cn_m : 0 <= m < 2 * P;
    cn_e : f_emin f <= e;
    cn_norm : e = f_emin f \/ P <= m;
    cn_fin : enc m e < f_infbits f
  }.

  Lemma decode_enc s m e : canon m e -> f_decode f (f_sign f s + enc m e) = FFin s m e.
  Proof.
    intros [Hm He Hn Hf]. pose proof P_pos as HP. pose proof E_ge4 as HE.
    assert (H0 : 0 <= enc m e) by (unfold enc; nia).
    rewrite inf_eq in Hf.
    assert (Hlt : enc m e < f_signbit f) by (rewrite sign_eq; nia).
    unfold f_decode.
    assert (Hs : (f_signbit f <=? f_sign f s + enc m e) = s) by (destruct s; unfold f_sign; lia).
    assert (Hmag : (f_sign f s + enc m e) mod f_signbit f = enc m e).
    { destruct s; unfold f_sign.
      - rewrite <- (Z.mul_1_l (f_signbit f)) at 1. rewrite Z.add_comm, Z_mod_plus_full. apply Z.mod_small. lia.
      - apply Z.mod_small. lia. }
    rewrite Hs, Hmag. fold mw. fold P. clear Hs Hmag.
    destruct (Z_lt_dec m P) as [Hlt2|Hge].
    - assert (e = f_emin f) by lia. subst e. unfold enc in *. rewrite Z.sub_diag in *.
      rewrite Z.mul_0_l, Z.add_0_l in *. rewrite Z.div_small by lia. rewrite Z.mod_small by lia.
      replace (0 =? 2 ^ f_ew f - 1) with false by lia. reflexivity.
    - replace (enc m e) with ((e - f_emin f + 1) * P + (m - P)) by (unfold enc; nia).
      rewrite Z.div_add_l by lia. rewrite (Z.div_small (m - P)) by lia.
      replace ((e - f_emin f + 1) * P + (m - P)) with ((m - P) + (e - f_emin f + 1) * P) by lia.
      rewrite Z_mod_plus_full, Z.mod_small by lia.
      replace (e - f_emin f + 1 + 0 =? 2 ^ f_ew f - 1) with false.
      2:{ symmetry. apply Z.eqb_neq. unfold enc in Hf. nia. }
      replace (e - f_emin f + 1 + 0 =? 0) with false by lia. f_equal; lia.
  Qed.

  Lemma decode_inf s : f_decode f (f_sign f s + f_infbits f) = FInf s.
  Proof.
    pose proof P_pos as HP. pose proof E_ge4 as HE. unfold f_decode. rewrite inf_eq.
    assert (Hlt : (2 ^ f_ew f - 1) * P < f_signbit f) by (rewrite sign_eq; nia).
    assert (Hs : (f_signbit f <=? f_sign f s + (2 ^ f_ew f - 1) * P) = s) by (destruct s; unfold f_sign; nia).
    assert (Hmag : (f_sign f s + (2 ^ f_ew f - 1) * P) mod f_signbit f = (2 ^ f_ew f - 1) * P).
    { destruct s; unfold f_sign.
      - rewrite <- (Z.mul_1_l (f_signbit f)) at 1. rewrite Z.add_comm, Z_mod_plus_full. apply Z.mod_small. nia.
      - apply Z.mod_small. nia. }
    rewrite Hs, Hmag. fold mw. fold P. rewrite Z.div_mul by lia. rewrite Z.mod_mul by lia.
    rewrite Z.eqb_refl. reflexivity.
  Qed.

  (* what decoding yields *)
  Lemma decode_cases bits : 0 <= bits < 2 * f_signbit f ->
    (exists s m e, f_decode f bits = FFin s m e /\ canon m e /\ bits = f_sign f s + enc m e) \/
    (exists s, f_decode f bits = FInf s /\ bits = f_sign f s + f_infbits f) \/
    (exists s p, f_decode f bits = FNan s p /\ 0 < p < P /\ bits = f_sign f s + f_infbits f + p).
  Proof.
    intros Hb. pose proof P_pos as HP. pose proof E_ge4 as HE.
    set (s := f_signbit f <=? bits). set (mag := bits mod f_signbit f).
    assert (Hbs : bits = f_sign f s + mag /\ 0 <= mag < 2 ^ f_ew f * P).
    { unfold s, mag. rewrite <- sign_eq. assert (0 < f_signbit f) by (rewrite sign_eq; nia).
      destruct (f_signbit f <=? bits) eqn:E; unfold f_sign.
      - split; [|apply Z.mod_pos_bound; lia]. rewrite <- (Z_mod_plus_full bits (-1)). rewrite Z.mod_small by lia. lia.
      - rewrite Z.mod_small by lia. lia. }
    destruct Hbs as [Hbs Hmag].
    unfold f_decode. fold s. fold mag. fold mw. fold P.
    pose proof (Z.div_mod mag P ltac:(lia)) as Hdm. pose proof (Z.mod_pos_bound mag P HP) as Hmod.
    assert (Hex : 0 <= mag / P < 2 ^ f_ew f) by (split; [apply Z.div_pos; lia|apply Z.div_lt_upper_bound; lia]).
    set (ex := mag / P) in *. set (mant := mag mod P) in *.
    destruct (ex =? 2 ^ f_ew f - 1) eqn:E1.
    - apply Z.eqb_eq in E1. right. destruct (mant =? 0) eqn:E2.
      + left. exists s. split; [reflexivity|]. rewrite inf_eq. nia.
      + right. exists s, mant. split; [reflexivity|]. split; [lia|]. rewrite inf_eq. nia.
    - left. destruct (ex =? 0) eqn:E2.
      + exists s, mant, (f_emin f). split; [reflexivity|]. unfold enc. split; [|nia].
        constructor; try lia. unfold enc. rewrite inf_eq. nia.
      + exists s, (mant + P), (ex - 1 + f_emin f). split; [reflexivity|]. unfold enc. split; [|nia].
        constructor; try lia. unfold enc. rewrite inf_eq. nia.
  Qed.

  (* M * 2^E = m * 2^e *)
  Definition eqv (M E m e : Z) : Prop := (E <= e /\ M = m * 2 ^ (e - E)) \/ (e <= E /\ m = M * 2 ^ (E - e)).

  Lemma log2_eqv M E m e : 0 < M -> 0 < m -> eqv M E m e -> Z.log2 M + E = Z.log2 m + e.
  Proof.
    intros HM Hm [[H ->]|[H ->]].
    - rewrite Z.log2_mul_pow2 by lia. lia.
    - rewrite Z.log2_mul_pow2 by lia. lia.
  Qed.

  Lemma round_canon M E m e : 0 < M -> 0 < m -> canon m e -> eqv M E m e -> f_round f M E = enc m e.
  Proof.
    intros HM Hm [Hm2 He Hn Hf] Hq. pose proof P_pos as HP.
    unfold f_round. replace (M =? 0) with false by lia.
    rewrite (log2_eqv M E m e HM Hm Hq).
    assert (Ht : Z.max (f_emin f) (Z.log2 m + e - f_mw f) = e).
    { assert (Z.log2 m <= mw).
      { assert (Z.log2 m < mw + 1); [|lia]. apply Z.log2_lt_pow2; auto. rewrite Z.pow_add_r by (unfold mw; lia).
        change (2 ^ 1) with 2. fold P. lia. }
      fold mw. destruct Hn as [->|Hn]; [lia|]. assert (mw <= Z.log2 m); [|lia].
      apply Z.log2_le_pow2; auto. }
    rewrite Ht. cbv zeta. fold mw. fold P.
    assert (Hqq : (if e <=? E then M * 2 ^ (E - e) else
       if (2 * (M mod 2 ^ (e - E)) <? 2 ^ (e - E)) || (2 * (M mod 2 ^ (e - E)) =? 2 ^ (e - E)) && Z.even (M / 2 ^ (e - E))
       then M / 2 ^ (e - E) else M / 2 ^ (e - E) + 1) = m).
    { destruct (e <=? E) eqn:El.
      - destruct Hq as [[H1 H2]|[H1 H2]]; [|lia]. assert (E = e) by lia. subst E. rewrite Z.sub_diag in *. lia.
      - destruct Hq as [[H1 H2]|[H1 H2]]; [|lia]. assert (0 < 2 ^ (e - E)) by (apply Z.pow_pos_nonneg; lia).
        rewrite H2, Z.mod_mul, Z.div_mul by lia. replace (2 * 0 <? 2 ^ (e - E)) with true by lia. reflexivity. }
    rewrite Hqq. fold (enc m e). replace (f_infbits f <=? enc m e) with false by lia. reflexivity.
  Qed.

  (* a number that fits the mantissa has a canonical form *)
  Lemma fits_canon m e : 0 < m < 2 * P -> f_emin f + mw <= e ->
    e + mw - f_emin f + 2 < 2 ^ f_ew f ->
    exists m' e', canon m' e' /\ 0 < m' /\ e' <= e /\ m' = m * 2 ^ (e - e').
  Proof.
    intros Hm He He2. pose proof P_pos as HP.
    assert (HL : 0 <= Z.log2 m <= mw).
    { split; [apply Z.log2_nonneg|]. assert (Z.log2 m < mw + 1); [|lia]. apply Z.log2_lt_pow2; [lia|].
      rewrite Z.pow_add_r by (unfold mw; lia). change (2 ^ 1) with 2. fold P. lia. }
    set (k := mw - Z.log2 m).
    assert (Hk : 0 < 2 ^ k) by (apply Z.pow_pos_nonneg; unfold k; lia).
    destruct (Z.log2_spec m ltac:(lia)) as [L1 L2].
    assert (HPk : P = 2 ^ Z.log2 m * 2 ^ k) by (unfold k, P; rewrite <- Z.pow_add_r by lia; f_equal; lia).
    rewrite Z.pow_succ_r in L2 by lia.
    assert (Hrange : P <= m * 2 ^ k < 2 * P) by nia.
    exists (m * 2 ^ k), (e - k). split; [|split; [nia|split; [unfold k; lia|f_equal; f_equal; lia]]].
    assert (Hek : f_emin f <= e - k) by (unfold k; lia).
    constructor; [lia|lia|lia|]. unfold enc. rewrite inf_eq.
    assert (e - k - f_emin f <= 2 ^ f_ew f - 3) by (unfold k; lia). nia.
  Qed.

  (* ---- the specification's reading of the bits *)
  Lemma exp_of s x : 0 <= x < 2 ^ f_ew f * P -> fl_exp mw (f_ew f) (f_sign f s + x) = x / P /\ fl_neg mw (f_ew f) (f_sign f s + x) = s /\
    fl_man mw (f_ew f) (f_sign f s + x) = x mod P.
  Proof.
    intros Hx. pose proof P_pos as HP. pose proof E_ge4 as HE. unfold fl_exp, fl_neg, fl_man. fold P.
    assert (Hs : f_sign f s = (if s then 2 ^ f_ew f else 0) * P) by (destruct s; unfold f_sign; [apply sign_eq|lia]).
    split; [|split].
    - rewrite Hs. rewrite Z.div_add_l by lia. 
      assert (0 <= x / P < 2 ^ f_ew f) by (split; [apply Z.div_pos; lia|apply Z.div_lt_upper_bound; lia]).
      destruct s.
      + rewrite <- (Z.mul_1_l (2 ^ f_ew f)) at 1. rewrite Z.add_comm, Z_mod_plus_full. apply Z.mod_small. auto.
      + rewrite Z.add_0_l. apply Z.mod_small. auto.
    - change (2 ^ (mw + f_ew f)) with (f_signbit f). unfold f_sign. rewrite sign_eq in *. destruct s; nia.
    - rewrite Hs, Z.add_comm, Z_mod_plus_full. reflexivity.
  Qed.

  Lemma enc_range m e : canon m e -> 0 <= enc m e < (2 ^ f_ew f - 1) * P.
  Proof. intros [H1 H2 H3 H4]. rewrite inf_eq in H4. pose proof P_pos. unfold enc in *. nia. Qed.

  Lemma spec_fin s m e : canon m e -> let bits := f_sign f s + enc m e in
    fl_finite mw (f_ew f) bits /\ fl_neg mw (f_ew f) bits = s /\ fl_mag mw (f_ew f) bits = m * 2 ^ (e - f_emin f).
  Proof.
    intros C bits. pose proof (enc_range m e C) as R. pose proof P_pos as HP. pose proof E_ge4 as HE.
    destruct (exp_of s (enc m e) ltac:(nia)) as (E1 & E2 & E3).
    unfold fl_finite, fl_mag. unfold bits. rewrite E1, E2, E3. 
    assert (enc m e / P < 2 ^ f_ew f - 1) by (apply Z.div_lt_upper_bound; lia).
    split; [lia|]. split; [reflexivity|]. fold P.
    destruct C as [H1 H2 H3 H4]. destruct (Z_lt_dec m P).
    - assert (e = f_emin f) by lia. subst e. unfold enc. rewrite Z.sub_diag, Z.mul_0_l, Z.add_0_l.
      rewrite Z.div_small, Z.mod_small by lia. rewrite Z.eqb_refl. rewrite Z.pow_0_r. lia.
    - replace (enc m e) with ((e - f_emin f + 1) * P + (m - P)) by (unfold enc; nia).
      rewrite Z.div_add_l by lia. rewrite (Z.div_small (m - P)) by lia.
      replace ((e - f_emin f + 1) * P + (m - P)) with ((m - P) + (e - f_emin f + 1) * P) by lia.
      rewrite Z_mod_plus_full, Z.mod_small by lia.
      replace (e - f_emin f + 1 + 0 =? 0) with false by lia. f_equal; [lia|]. f_equal. lia.
  Qed.
  Lemma spec_nonfin s p : 0 <= p < P -> let bits := f_sign f s + (f_infbits f + p) in
    is_nan mw (f_ew f) bits = negb (p =? 0) /\ is_inf mw (f_ew f) bits = (p =? 0) /\ fl_neg mw (f_ew f) bits = s /\ ~ fl_finite mw (f_ew f) bits.
  Proof.
    intros Hp bits. pose proof P_pos as HP. pose proof E_ge4 as HE.
    destruct (exp_of s ((2 ^ f_ew f - 1) * P + p) ltac:(nia)) as (E1 & E2 & E3).
    unfold fl_finite, is_nan, is_inf. unfold bits. rewrite inf_eq. rewrite E1, E2, E3. rewrite Z.div_add_l by lia.
    rewrite (Z.div_small p), Z.add_0_r, Z.eqb_refl by lia.
    rewrite Z.add_comm, Z_mod_plus_full, Z.mod_small by lia. split; [reflexivity|]. split; [reflexivity|].
    split; [reflexivity|]. intros K. apply K. reflexivity.
  Qed.
  Lemma spec_fin_flags s m e : canon m e -> let bits := f_sign f s + enc m e in
    is_nan mw (f_ew f) bits = false /\ is_inf mw (f_ew f) bits = false.
  Proof.
    intros C bits. destruct (spec_fin s m e C) as (A & _). unfold fl_finite in A. unfold is_nan, is_inf. unfold bits.
    replace (_ =? _) with false by lia. auto.
  Qed.
  Lemma decode_finite bits : 0 <= bits < 2 * f_signbit f -> fl_finite mw (f_ew f) bits ->
    exists s m e, f_decode f bits = FFin s m e /\ canon m e /\ bits = f_sign f s + enc m e.
  Proof.
    intros Hb Hf. pose proof P_pos as HP. destruct (decode_cases bits Hb) as [H|[(s & _ & H)|(s & p & _ & Hp & H)]]; [exact H| |]; exfalso.
    - destruct (spec_nonfin s 0 ltac:(lia)) as (_ & _ & _ & K). rewrite Z.add_0_r in K. rewrite <- H in K. auto.
    - destruct (spec_nonfin s p ltac:(lia)) as (_ & _ & _ & K). rewrite Z.add_assoc, <- H in K. auto.
  Qed.

  (* ---- rounding *)
  (* the result of f_round as a number q * 2^t *)
  Lemma round_value M E : 0 < M -> exists q t,
    f_emin f <= t /\ 0 <= q <= 2 * P /\ (t = f_emin f \/ P <= q) /\
    f_round f M E = (if f_infbits f <=? enc q t then f_infbits f else enc q t) /\
    ((t <= E /\ q = M * 2 ^ (E - t)) \/
     (E < t /\ (forall k, Z.abs (M - q * 2 ^ (t - E)) <= Z.abs (M - k * 2 ^ (t - E))) /\
      (2 * Z.abs (M - q * 2 ^ (t - E)) = 2 ^ (t - E) -> Z.even q = true) /\
      (t = f_emin f \/ P * 2 ^ (t - E) <= M))) .
  Proof.
    intros HM. pose proof P_pos as HP. pose proof P_ge2 as HP2.
    set (t := Z.max (f_emin f) (Z.log2 M + E - mw)).
    pose proof (Z.log2_nonneg M) as HL. destruct (Z.log2_spec M HM) as [L1 L2].
    unfold f_round. replace (M =? 0) with false by lia. fold mw. fold t. cbv zeta. fold P.
    destruct (t <=? E) eqn:Et.
    - exists (M * 2 ^ (E - t)), t.
      assert (HT : 0 < 2 ^ (E - t)) by (apply Z.pow_pos_nonneg; lia).
      assert (Hq : 0 < M * 2 ^ (E - t)) by nia.
      assert (HLq : Z.log2 (M * 2 ^ (E - t)) = Z.log2 M + E - t) by (rewrite Z.log2_mul_pow2 by lia; lia).
      split; [unfold t; lia|]. split; [|split; [|split; [reflexivity|left; split; [lia|reflexivity]]]].
      + split; [lia|]. assert (M * 2 ^ (E - t) < 2 ^ (mw + 1)).
        { apply Z.log2_lt_pow2; [lia|]. rewrite HLq. unfold t. lia. }
        rewrite Z.pow_add_r in H by (unfold mw; lia). fold P in H. lia.
      + destruct (Z.eq_dec t (f_emin f)); [auto|]. right. apply Z.log2_le_pow2; [lia|]. rewrite HLq. unfold t in *. lia.
    - assert (Hh : 0 < 2 ^ (t - E)) by (apply Z.pow_pos_nonneg; lia). set (h := 2 ^ (t - E)) in *.
      assert (Hh2 : Z.even h = true).
      { unfold h. replace (t - E) with (Z.succ (t - E - 1)) by lia. rewrite Z.pow_succ_r by lia. rewrite Z.even_mul. reflexivity. }
      set (q := M / h). set (r := M mod h).
      assert (Hqr : M = h * q + r /\ 0 <= r < h) by (split; [apply Z.div_mod; lia|apply Z.mod_pos_bound; lia]). destruct Hqr as [Hqr Hr].
      assert (Hq0 : 0 <= q) by (apply Z.div_pos; lia).
      assert (Hq2 : q < 2 * P).
      { apply Z.div_lt_upper_bound; [lia|]. assert (M < 2 ^ (mw + 1 + (t - E))).
        { eapply Z.lt_le_trans; [exact L2|]. apply Z.pow_le_mono_r; [lia|]. unfold t. lia. }
        rewrite !Z.pow_add_r in H by (unfold mw in *; lia). fold P in H. fold h in H. lia. }
      assert (HqP : t = f_emin f \/ P <= q).
      { destruct (Z.eq_dec t (f_emin f)); [auto|]. right. apply Z.div_le_lower_bound; [lia|].
        assert (2 ^ (mw + (t - E)) <= M).
        { eapply Z.le_trans; [|exact L1]. apply Z.pow_le_mono_r; [lia|]. unfold t in *. lia. }
        rewrite Z.pow_add_r in H by (unfold mw in *; lia). fold P in H. fold h in H. lia. }
      set (q' := if (2 * r <? h) || (2 * r =? h) && Z.even q then q else q + 1).
      assert (Hq' : (q' = q /\ 2 * r <= h) \/ (q' = q + 1 /\ h <= 2 * r)).
      { unfold q'. destruct (2 * r <? h) eqn:E1; cbn [orb]; [left; lia|].
        destruct (2 * r =? h) eqn:E2; cbn [andb]; [destruct (Z.even q)|]; [left|right|right]; lia. }
      exists q', t. split; [unfold t; lia|]. split; [lia|]. split; [lia|]. split; [reflexivity|].
      right. split; [lia|]. split; [|split].
      + intros k. destruct (Z_lt_le_dec k (q + 1)) as [Hk|Hk].
        * assert (k * h <= q * h) by nia. destruct Hq' as [[-> H0]|[-> H0]]; nia.
        * assert ((q + 1) * h <= k * h) by nia. destruct Hq' as [[-> H0]|[-> H0]]; nia.
      + unfold q'. intros Ht. destruct (2 * r <? h) eqn:E1; cbn [orb].
        * exfalso. cbn [orb] in Ht. nia.
        * destruct (2 * r =? h) eqn:E2; cbn [andb].
          -- destruct (Z.even q) eqn:E3; auto. rewrite Z.even_add, E3. reflexivity.
          -- exfalso. cbn [orb andb] in Ht. nia.
      + destruct HqP as [->|HqP]; [auto|]. right. nia.
  Qed.

  Lemma unit_emin : fl_unit mw (f_ew f) = f_emin f.
  Proof. unfold fl_unit, f_emin, f_bias, mw. lia. Qed.

  Lemma canon_of q t : 0 <= q <= 2 * P -> f_emin f <= t -> (t = f_emin f \/ P <= q) -> enc q t < f_infbits f ->
    exists m e, canon m e /\ enc m e = enc q t /\ forall B, B <= f_emin f -> m * 2 ^ (e - B) = q * 2 ^ (t - B).
  Proof.
    intros Hq Ht Hn Hf. pose proof P_pos as HP. destruct (Z.eq_dec q (2 * P)) as [->|Hne].
    - exists P, (t + 1). assert (He : enc P (t + 1) = enc (2 * P) t) by (unfold enc; lia).
      split; [constructor; try lia|]. split; [exact He|]. intros B HB.
      replace (t + 1 - B) with (Z.succ (t - B)) by lia. rewrite Z.pow_succ_r by lia. lia.
    - exists q, t. split; [constructor; try lia|]. auto.
  Qed.

  Lemma near_abs M E q t m2 e2 B : B <= E < t -> B <= e2 -> 0 <= m2 < 2 * P ->
    (forall k, Z.abs (M - q * 2 ^ (t - E)) <= Z.abs (M - k * 2 ^ (t - E))) ->
    (e2 < t -> P * 2 ^ (t - E) <= M) ->
    Z.abs (M * 2 ^ (E - B) - q * 2 ^ (t - B)) <= Z.abs (M * 2 ^ (E - B) - m2 * 2 ^ (e2 - B)).
  Proof.
    intros HBE HB2 Hm2 Hk Hlow. pose proof P_pos as HP.
    assert (Hpos : forall k, 0 <= k -> 0 < 2 ^ k) by (intros; apply Z.pow_pos_nonneg; lia).
    assert (Hsp : 2 ^ (t - B) = 2 ^ (t - E) * 2 ^ (E - B)) by (apply pow_split; lia).
    rewrite Hsp. pose proof (Hpos (E - B) ltac:(lia)) as Hg. pose proof (Hpos (t - E) ltac:(lia)) as Hh.
    destruct (Z_lt_dec e2 t) as [He2|He2].
    - specialize (Hlow He2). specialize (Hk P).
      assert (Hlt : m2 * 2 ^ (e2 - B) <= P * (2 ^ (t - E) * 2 ^ (E - B))).
      { rewrite <- Hsp. rewrite (pow_double t B) by lia.
        assert (H1 : 2 ^ (e2 - B) <= 2 ^ (t - 1 - B)) by (apply Z.pow_le_mono_r; lia).
        pose proof (Hpos (e2 - B) ltac:(lia)) as H2.
        transitivity (2 * P * 2 ^ (e2 - B)); [apply Z.mul_le_mono_nonneg_r; lia|].
        replace (P * (2 * 2 ^ (t - 1 - B))) with (2 * P * 2 ^ (t - 1 - B)) by ring. apply Z.mul_le_mono_nonneg_l; lia. }
      set (h := 2 ^ (t - E)) in *. set (g := 2 ^ (E - B)) in *.
      replace (M * g - q * (h * g)) with ((M - q * h) * g) by ring. rewrite Z.abs_mul, (Z.abs_eq g) by lia.
      assert (H : Z.abs (M - q * h) * g <= (M - P * h) * g) by (apply Z.mul_le_mono_nonneg_r; lia).
      replace ((M - P * h) * g) with (M * g - P * (h * g)) in H by ring. lia.
    - specialize (Hk (m2 * 2 ^ (e2 - t))).
      replace (m2 * 2 ^ (e2 - B)) with (m2 * 2 ^ (e2 - t) * 2 ^ (t - E) * 2 ^ (E - B)).
      2:{ rewrite (pow_split e2 t B), Hsp by lia. ring. }
      set (h := 2 ^ (t - E)) in *. set (g := 2 ^ (E - B)) in *. set (k := m2 * 2 ^ (e2 - t)) in *.
      replace (M * g - q * (h * g)) with ((M - q * h) * g) by ring. rewrite <- Z.mul_sub_distr_r.
      rewrite !Z.abs_mul, (Z.abs_eq g) by lia. apply Z.mul_le_mono_nonneg_r; lia.
  Qed.

  Lemma round_nearest s M E : 0 <= M -> let r := f_sign f s + f_round f M E in
    (fl_finite mw (f_ew f) r /\ nearest mw (f_ew f) (if s then - M else M) E r) \/
    (r = f_sign f s + f_infbits f /\ too_large mw (f_ew f) (if s then - M else M) E).
  Proof.
    intros HM r. pose proof P_pos as HP. pose proof E_ge4 as HE4.
    set (B := Z.min E (f_emin f)).
    assert (HBE : B <= E) by (unfold B; lia). assert (HBu : B <= f_emin f) by (unfold B; lia).
    assert (Hpos : forall k, 0 <= k -> 0 < 2 ^ k) by (intros; apply Z.pow_pos_nonneg; lia).
    destruct (Z.eq_dec M 0) as [->|HM0].
    { left. assert (C0 : canon 0 (f_emin f)).
      { constructor; try lia. unfold enc. rewrite inf_eq. nia. }
      assert (Er : r = f_sign f s + enc 0 (f_emin f)).
      { unfold r, f_round, enc. rewrite Z.eqb_refl. lia. }
      destruct (spec_fin s 0 (f_emin f) C0) as (F1 & F2 & F3). rewrite <- Er in *. split; [exact F1|].
      intros x _ _. unfold fl_signed. rewrite F2, F3. destruct s; lia. }
    assert (HMp : 0 < M) by lia.
    destruct (round_value M E HMp) as (q & t & Ht & Hq & Hn & Er & Hv).
    destruct (f_infbits f <=? enc q t) eqn:Ei.
    - right. split; [unfold r; rewrite Er; reflexivity|]. unfold too_large. rewrite unit_emin. fold B. fold P.
      replace (Z.abs (if s then - M else M)) with M by (destruct s; lia).
      rewrite inf_eq in Ei. unfold enc in Ei.
      assert (Htm : 2 ^ f_ew f - 3 <= t - f_emin f) by nia.
      set (em := 2 ^ f_ew f - 3 + f_emin f).
      assert (Hup : q * 2 ^ (t - B) <= M * 2 ^ (E - B) \/ (E < t /\ q = 2 * P /\ t = em) \/ 2 * P * 2 ^ (em - B) <= M * 2 ^ (E - B)).
      { destruct Hv as [[HtE ->]|[HtE (_ & _ & Hlow)]].
        - left. rewrite (mul_pow_split M E t B) by (clear - HBE HBu HtE Ht; lia). apply Z.le_refl.
        - destruct (Z.eq_dec t em); [right; left; split; [lia|]; unfold em in *; split; nia|].
          right. right. destruct Hlow as [->|Hlow]; [unfold em in *; lia|].
          replace (2 * P * 2 ^ (em - B)) with (P * 2 ^ (em + 1 - B)).
          2:{ rewrite (pow_double (em + 1) B) by (unfold em; lia). replace (em + 1 - 1 - B) with (em - B) by lia. ring. }
          assert (2 ^ (em + 1 - B) <= 2 ^ (t - B)) by (apply Z.pow_le_mono_r; unfold em in *; lia).
          assert (2 ^ (t - B) = 2 ^ (t - E) * 2 ^ (E - B)) by (apply pow_split; lia).
          assert (Hg : 0 < 2 ^ (E - B)) by (apply Hpos; lia).
          transitivity (P * 2 ^ (t - B)); [apply Z.mul_le_mono_nonneg_l; lia|]. rewrite H0.
          replace (P * (2 ^ (t - E) * 2 ^ (E - B))) with (P * 2 ^ (t - E) * 2 ^ (E - B)) by ring. apply Z.mul_le_mono_nonneg_r; lia. }
      pose proof (Hpos (em - B) ltac:(unfold em; lia)) as Hem.
      destruct Hup as [Hup|[(HtE & Hq2 & Hte)|Hup]].
      + assert (HH : 2 * P * 2 ^ (em - B) <= q * 2 ^ (t - B)).
        { destruct (Z.eq_dec t em) as [->|Hne].
          - apply Z.mul_le_mono_nonneg_r; [lia|]. unfold em in *. clear - Ei HP Hq Htm. nia.
          - assert (HT : 2 ^ (em + 1 - B) <= 2 ^ (t - B)) by (apply Z.pow_le_mono_r; unfold em in *; lia).
            rewrite (pow_double (em + 1) B) in HT by (unfold em; lia). replace (em + 1 - 1 - B) with (em - B) in HT by lia.
            assert (HPq : P <= q) by (unfold em in *; lia).
            transitivity (P * 2 ^ (t - B)); [|apply Z.mul_le_mono_nonneg_r; lia].
            replace (2 * P * 2 ^ (em - B)) with (P * (2 * 2 ^ (em - B))) by ring. apply Z.mul_le_mono_nonneg_l; lia. }
        replace ((4 * P - 1) * 2 ^ (em - B)) with (2 * (2 * P * 2 ^ (em - B)) - 2 ^ (em - B)) by ring. lia.
      + destruct Hv as [[HtE2 _]|[_ (Hk & _ & _)]]; [lia|]. specialize (Hk (2 * P - 1)). rewrite Hq2, Hte in Hk.
        assert (Hsp : 2 ^ (em - B) = 2 ^ (em - E) * 2 ^ (E - B)) by (apply pow_split; lia).
        rewrite Hsp. pose proof (Hpos (E - B) ltac:(lia)) as Hg. pose proof (Hpos (em - E) ltac:(lia)) as Hh.
        set (h := 2 ^ (em - E)) in *. set (g := 2 ^ (E - B)) in *.
        assert (HH : (4 * P - 1) * h <= 2 * M).
        { clear - Hk Hh. replace ((2 * P - 1) * h) with (2 * P * h - h) in Hk by ring.
          replace ((4 * P - 1) * h) with (2 * (2 * P * h) - h) by ring. lia. }
        replace ((4 * P - 1) * (h * g)) with ((4 * P - 1) * h * g) by ring.
        replace (2 * (M * g)) with (2 * M * g) by ring. apply Z.mul_le_mono_nonneg_r; lia.
      + replace ((4 * P - 1) * 2 ^ (em - B)) with (2 * (2 * P * 2 ^ (em - B)) - 2 ^ (em - B)) by ring. lia.
    - left. destruct (canon_of q t Hq Ht Hn ltac:(lia)) as (m & e & C & Ee & Hval).
      assert (Err : r = f_sign f s + enc m e) by (unfold r; rewrite Er, Ee; reflexivity).
      destruct (spec_fin s m e C) as (F1 & F2 & F3). rewrite <- Err in *. split; [exact F1|].
      unfold nearest. rewrite unit_emin. fold B. intros x Hx Hxf.
      assert (Hsb : 2 ^ (mw + f_ew f + 1) = 2 * f_signbit f).
      { unfold f_signbit. replace (mw + f_ew f + 1) with (Z.succ (mw + f_ew f)) by lia. apply Z.pow_succ_r. unfold mw. lia. }
      rewrite Hsb in Hx. destruct (decode_finite x Hx Hxf) as (s2 & m2 & e2 & _ & C2 & Ex).
      destruct (spec_fin s2 m2 e2 C2) as (G1 & G2 & G3). rewrite <- Ex in *.
      unfold fl_signed. rewrite F2, F3, G2, G3.
      assert (HR : m * 2 ^ (e - f_emin f) * 2 ^ (f_emin f - B) = q * 2 ^ (t - B)).
      { rewrite <- (Hval B HBu). apply mul_pow_split. destruct C as [_ Cx _ _]. clear - HBu Cx. lia. }
      assert (HX : m2 * 2 ^ (e2 - f_emin f) * 2 ^ (f_emin f - B) = m2 * 2 ^ (e2 - B)).
      { apply mul_pow_split. destruct C2 as [_ Cx _ _]. clear - HBu Cx. lia. }
      assert (Hmain : Z.abs (M * 2 ^ (E - B) - q * 2 ^ (t - B)) <= Z.abs (M * 2 ^ (E - B) - m2 * 2 ^ (e2 - B))).
      { destruct Hv as [[HtE Hqq]|[HtE (Hk & _ & Hlow)]].
        - rewrite Hqq, (mul_pow_split M E t B) by (clear - HtE Ht HBu; lia).
          rewrite Z.sub_diag. apply Z.abs_nonneg.
        - destruct C2 as [D1 D2 D3 D4]. apply (near_abs M E q t m2 e2 B); auto; clear - HBE HBu HtE Ht D1 D2 Hlow; [lia|]. 
          intros He. destruct Hlow; [lia|auto]. }
      assert (HX0 : 0 <= m2 * 2 ^ (e2 - B)).
      { destruct C2 as [D1 D2 _ _]. apply Z.mul_nonneg_nonneg; [apply D1|]. apply Z.lt_le_incl, Hpos. clear - D2 HBu. lia. }
      assert (HM2 : 0 <= M * 2 ^ (E - B)) by (apply Z.mul_nonneg_nonneg; [exact HM|]; apply Z.lt_le_incl, Hpos; clear - HBE; lia).
      clear - HX0 HM2 Hmain HR HX. destruct s, s2; rewrite ?Z.mul_opp_l, ?HR, ?HX;
        set (v := M * 2 ^ (E - B)) in *; set (y := m2 * 2 ^ (e2 - B)) in *; set (z := q * 2 ^ (t - B)) in *; clearbody v y z; lia.
  Qed.
End Fmt.

(* ------------------------------------------------------------------ *)
(* Conversions between the two formats. *)
Lemma round_range f M E : 0 < f_mw f -> 2 <= f_ew f -> 0 <= M -> 0 <= f_round f M E <= f_infbits f.
Proof.
  intros H1 H2 HM. pose proof (P_pos f H1) as HP. pose proof (E_ge4 f H2) as HE.
  assert (HI : 0 <= f_infbits f) by (rewrite inf_eq; nia).
  destruct (Z.eq_dec M 0) as [->|Hne]; [unfold f_round; rewrite Z.eqb_refl; lia|].
  destruct (round_value f H1 H2 M E ltac:(lia)) as (q & t & Ht & Hq & _ & Er & _). rewrite Er.
  destruct (f_infbits f <=? enc f q t) eqn:Ei; [lia|]. unfold enc in *. nia.
Qed.

Lemma lor_mul_add a b c k : 0 <= k -> 0 <= b < 2 ^ k -> 0 <= c < 2 ^ k -> Z.lor (a * 2 ^ k + b) c = a * 2 ^ k + Z.lor b c.
Proof.
  intros Hk Hb Hc.
  assert (Hhi : forall x i, 0 <= x < 2 ^ k -> k <= i -> Z.testbit x i = false).
  { intros x i Hx Hi. destruct (Z.eq_dec x 0) as [->|]; [apply Z.bits_0|]. apply Z.bits_above_log2; [lia|].
    apply Z.lt_le_trans with k; auto. apply Z.log2_lt_pow2; lia. }
  assert (Hadd : forall x, 0 <= x < 2 ^ k -> a * 2 ^ k + x = Z.lor (a * 2 ^ k) x).
  { intros x Hx. assert (Hl : Z.land (a * 2 ^ k) x = 0).
    { apply Z.bits_inj'. intros i Hi. rewrite Z.land_spec, Z.bits_0. destruct (Z_lt_dec i k).
      - rewrite Z.mul_pow2_bits_low by auto. reflexivity.
      - rewrite (Hhi x) by lia. apply andb_false_r. }
    rewrite <- Z.lxor_lor by auto. apply Z.add_nocarry_lxor. auto. }
  assert (Hbc : 0 <= Z.lor b c < 2 ^ k).
  { split; [apply Z.lor_nonneg; lia|]. destruct (Z.eq_dec (Z.lor b c) 0) as [E0|Hne]; [rewrite E0; lia|].
    assert (0 <= Z.lor b c) by (apply Z.lor_nonneg; lia). apply Z.log2_lt_pow2; [lia|]. rewrite Z.log2_lor by lia.
    apply Z.max_lub_lt.
    - destruct (Z.eq_dec b 0) as [->|]; [simpl; destruct (Z.eq_dec k 0) as [->|]; [|lia]|apply Z.log2_lt_pow2; lia]. assert (c = 0) by lia. subst. simpl in Hne. lia.
    - destruct (Z.eq_dec c 0) as [->|]; [simpl; destruct (Z.eq_dec k 0) as [->|]; [|lia]|apply Z.log2_lt_pow2; lia]. assert (b = 0) by lia. subst. simpl in Hne. lia. }
  rewrite (Hadd b Hb), (Hadd (Z.lor b c) Hbc). symmetry. apply Z.lor_assoc.
Qed.
Lemma lor_range b c k : 0 <= k -> 0 <= b < 2 ^ k -> 0 <= c < 2 ^ k -> 0 <= Z.lor b c < 2 ^ k.
Proof.
  intros Hk Hb Hc. split; [apply Z.lor_nonneg; lia|]. destruct (Z.eq_dec (Z.lor b c) 0) as [E0|Hne]; [rewrite E0; lia|].
  assert (0 <= Z.lor b c) by (apply Z.lor_nonneg; lia). apply Z.log2_lt_pow2; [lia|]. rewrite Z.log2_lor by lia.
  apply Z.max_lub_lt.
  - destruct (Z.eq_dec b 0) as [->|]; [simpl; destruct (Z.eq_dec k 0) as [->|]; [|lia]|apply Z.log2_lt_pow2; lia]. assert (c = 0) by lia. subst. simpl in Hne. lia.
  - destruct (Z.eq_dec c 0) as [->|]; [simpl; destruct (Z.eq_dec k 0) as [->|]; [|lia]|apply Z.log2_lt_pow2; lia]. assert (b = 0) by lia. subst. simpl in Hne. lia.
Qed.

Definition widen (b : Z) : Z := f_encode fmt64 23 (f_decode fmt32 b).
Definition narrow (b : Z) : Z := f_encode fmt32 52 (f_decode fmt64 b).

Lemma zero_canon f : 0 < f_mw f -> 2 <= f_ew f -> canon f 0 (f_emin f).
Proof.
  intros H1 H2. pose proof (P_pos f H1). pose proof (E_ge4 f H2). constructor; try lia. unfold enc. rewrite inf_eq. nia.
Qed.

Lemma widen_fin s m e : canon fmt32 m e -> exists m' e', canon fmt64 m' e' /\
  widen (f_sign fmt32 s + enc fmt32 m e) = f_sign fmt64 s + enc fmt64 m' e' /\
  narrow (f_sign fmt64 s + enc fmt64 m' e') = f_sign fmt32 s + enc fmt32 m e /\
  m' * 2 ^ (e' + 1074) = m * 2 ^ (e + 1074).
Proof.
  intros C. unfold widen, narrow. rewrite (decode_enc fmt32 ltac:(reflexivity) ltac:(cbn; lia) s m e C). cbn [f_encode].
  destruct (Z.eq_dec m 0) as [->|Hm].
  - exists 0, (-1074). assert (C0 : canon fmt64 0 (-1074)) by (apply (zero_canon fmt64); cbn; lia).
    split; [exact C0|]. rewrite (decode_enc fmt64 ltac:(reflexivity) ltac:(cbn; lia) s 0 _ C0). cbn [f_encode].
    split; [reflexivity|]. split; [|lia].
    assert (e = f_emin fmt32) by (destruct C as [_ _ [He|He] _]; [auto|cbn in He; lia]). subst e. reflexivity.
  - destruct C as [C1 C2 C3 C4]. assert (Hpos : 0 < m) by lia.
    change (2 * 2 ^ f_mw fmt32) with 16777216 in C1. change (f_emin fmt32) with (-149) in C2.
    assert (He : e <= 104).
    { unfold enc in C4. change (f_infbits fmt32) with 2139095040 in C4. change (f_emin fmt32) with (-149) in C3, C4.
      change (2 ^ f_mw fmt32) with 8388608 in *. lia. }
    destruct (fits_canon fmt64 ltac:(reflexivity) ltac:(cbn; lia) m e) as (m' & e' & C' & Hm' & He' & Eq).
    { change (2 * 2 ^ f_mw fmt64) with 9007199254740992. lia. }
    { change (f_emin fmt64 + f_mw fmt64) with (-1022). lia. }
    { change (f_mw fmt64) with 52. change (f_emin fmt64) with (-1074). change (2 ^ f_ew fmt64) with 2048. lia. }
    exists m', e'. split; [exact C'|].
    assert (C : canon fmt32 m e) by (constructor; auto).
    split; [|split].
    + rewrite (round_canon fmt64 ltac:(reflexivity) m e m' e' Hpos Hm' C'); [reflexivity|]. right. split; [lia|]. exact Eq.
    + rewrite (decode_enc fmt64 ltac:(reflexivity) ltac:(cbn; lia) s m' e' C'). cbn [f_encode].
      rewrite (round_canon fmt32 ltac:(reflexivity) m' e' m e Hm' Hpos C); [reflexivity|]. left. split; [lia|exact Eq].
    + destruct C' as [_ C2' _ _]. change (f_emin fmt64) with (-1074) in C2'. rewrite Eq.
      replace (e' + 1074) with (e' - -1074) by lia. replace (e + 1074) with (e - -1074) by lia. apply mul_pow_split. lia.
Qed.

Lemma widen_inf s : widen (f_sign fmt32 s + f_infbits fmt32) = f_sign fmt64 s + f_infbits fmt64 /\
  narrow (f_sign fmt64 s + f_infbits fmt64) = f_sign fmt32 s + f_infbits fmt32.
Proof. destruct s; split; reflexivity. Qed.

Lemma decode_nan f s p : 0 < f_mw f -> 2 <= f_ew f -> 0 < p < 2 ^ f_mw f -> f_decode f (f_sign f s + f_infbits f + p) = FNan s p.
Proof.
  intros H1 H2 Hp. pose proof (P_pos f H1) as HP. pose proof (E_ge4 f H2) as HE.
  assert (Hb : 0 <= f_sign f s + f_infbits f + p < 2 * f_signbit f).
  { rewrite inf_eq, (sign_eq f H1 H2). unfold f_sign. rewrite (sign_eq f H1 H2). destruct s; nia. }
  destruct (spec_nonfin f H1 H2 s p ltac:(lia)) as (N1 & N2 & N3 & _). rewrite Z.add_assoc in N1, N2, N3.
  destruct (decode_cases f H1 H2 _ Hb) as [(s' & m & e & _ & C & E)|[(s' & _ & E)|(s' & p' & D & Hp' & E)]].
  - destruct (spec_fin_flags f H1 H2 s' m e C) as (A & _). rewrite <- E in A. rewrite N1 in A. lia.
  - destruct (spec_nonfin f H1 H2 s' 0 ltac:(lia)) as (A & _). rewrite Z.add_0_r, <- E, N1 in A. lia.
  - destruct (spec_nonfin f H1 H2 s' p' ltac:(lia)) as (_ & _ & A & _). rewrite Z.add_assoc, <- E, N3 in A. subst s'.
    rewrite D. f_equal. lia.
Qed.

Lemma widen_nan s p : 0 < p < 8388608 ->
  exists p', 0 < p' < 4503599627370496 /\ widen (f_sign fmt32 s + f_infbits fmt32 + p) = f_sign fmt64 s + f_infbits fmt64 + p' /\
  narrow (f_sign fmt64 s + f_infbits fmt64 + p') = f_sign fmt32 s + f_infbits fmt32 + Z.lor p (2 ^ 22).
Proof.
  intros Hp. exists (Z.lor (p * 2 ^ 29) (2 ^ 51)).
  assert (R : 0 <= Z.lor (p * 2 ^ 29) (2 ^ 51) < 2 ^ 52) by (apply lor_range; [lia|change (2 ^ 29) with 536870912; change (2 ^ 52) with 4503599627370496; lia|split; [discriminate|reflexivity]]).
  assert (R0 : Z.lor (p * 2 ^ 29) (2 ^ 51) <> 0).
  { intros E. assert (K : Z.testbit (Z.lor (p * 2 ^ 29) (2 ^ 51)) 51 = true) by (rewrite Z.lor_spec, Z.pow2_bits_true by lia; apply orb_true_r).
    rewrite E, Z.bits_0 in K. discriminate K. }
  change (2 ^ 52) with 4503599627370496 in R. split; [lia|]. unfold widen, narrow.
  rewrite (decode_nan fmt32) by (try (change (2 ^ f_mw fmt32) with 8388608); cbn; lia).
  assert (R1 : 0 < Z.lor (p * 2 ^ 29) (2 ^ 51) < 2 ^ f_mw fmt64) by (change (2 ^ f_mw fmt64) with 4503599627370496; lia).
  rewrite (decode_nan fmt64 s _ ltac:(reflexivity) ltac:(discriminate) R1).
  split; [reflexivity|]. unfold f_encode. change (52 <=? f_mw fmt32) with false. change (52 - f_mw fmt32) with 29. change (f_mw fmt32 - 1) with 22. cbv iota.
  f_equal. rewrite <- (Z.shiftr_div_pow2 _ 29) by lia. rewrite Z.shiftr_lor, !Z.shiftr_div_pow2 by lia.
  rewrite Z.div_mul by lia. change (2 ^ 51 / 2 ^ 29) with (2 ^ 22). rewrite <- Z.lor_assoc, Z.lor_diag. reflexivity.
Qed.

(* ------------------------------------------------------------------ *)
(* Element-level statements. *)
Definition fmt_of (mw ew : Z) : ffmt := mkFmt mw ew.
Lemma float_sty d mw ew : float_type d mw ew -> exists t, sty_type d t /\ sty_kind t = KFlt (mkFmt mw ew) /\
  8 * Z.of_nat (sty_size t) = mw + ew + 1 /\ t <> B1 /\ 0 < mw /\ 2 <= ew.
Proof.
  intros H; inversion H as [c Hc|c Hc]; subst; [exists F4|exists F8];
    (split; [split; [eexists _, _; split; [reflexivity|exact Hc]|split; [reflexivity|split; reflexivity]]|]);
    (split; [reflexivity|]); (split; [reflexivity|]); (split; [discriminate|lia]).
Qed.
Lemma float_bits d mw ew v : float_type d mw ew -> length v = Z.to_nat ((mw + ew + 1) / 8) -> 0 <= elem_bits d v < 2 ^ (mw + ew + 1).
Proof.
  intros H Hl. assert (O : ordered d) by (inversion H; subst; eexists _, _; split; try reflexivity; auto).
  pose proof (bits_range d v O) as R. rewrite Hl in R. inversion H; subst; exact R.
Qed.
Lemma signbit2 mw ew : 0 < mw -> 2 <= ew -> 2 ^ (mw + ew + 1) = 2 * f_signbit (mkFmt mw ew).
Proof.
  intros H1 H2. unfold f_signbit. cbn [f_mw f_ew]. replace (mw + ew + 1) with (Z.succ (mw + ew)) by lia. apply Z.pow_succ_r. lia.
Qed.
Lemma pow256 t n : 8 * Z.of_nat (sty_size t) = n -> 256 ^ Z.of_nat (sty_size t) = 2 ^ n.
Proof. intros <-. rewrite Z.pow_mul_r by lia. reflexivity. Qed.

Lemma inf_lt f : 0 < f_mw f -> 2 <= f_ew f -> 0 <= f_infbits f < f_signbit f.
Proof. intros H1 H2. rewrite inf_eq, (sign_eq f H1 H2). pose proof (P_pos f H1). pose proof (E_ge4 f H2). nia. Qed.
Lemma sign_range f s x : 0 < f_mw f -> 2 <= f_ew f -> 0 <= x < f_signbit f -> 0 <= f_sign f s + x < 2 * f_signbit f.
Proof. intros H1 H2 Hx. destruct s; unfold f_sign; lia. Qed.

(* f4 -> f8 -> f4 *)
Lemma f4_f8 me sd dd v : float_type sd 23 8 -> float_type dd 52 11 -> length v = 4%nat ->
  exists r v', converts me sd dd v r /\ length r = 8%nat /\ converts me dd sd r v' /\ length v' = 4%nat /\
    let b := elem_bits sd v in let b' := elem_bits dd r in
    fl_neg 52 11 b' = fl_neg 23 8 b /\ is_nan 52 11 b' = is_nan 23 8 b /\ is_inf 52 11 b' = is_inf 23 8 b /\
    (fl_finite 23 8 b -> fl_finite 52 11 b' /\ same_scaled (fl_mag 52 11 b') (fl_unit 52 11) (fl_mag 23 8 b) (fl_unit 23 8)) /\
    elem_bits sd v' = (if is_nan 23 8 b then Z.lor b (2 ^ 22) else b).
Proof.
  intros Hs Hd Hl.
  destruct (float_sty _ _ _ Hs) as (ts & Ts & Ks & Ws & Bs & _). destruct (float_sty _ _ _ Hd) as (td & Td & Kd & Wd & Bd & _).
  pose proof (float_bits sd 23 8 v Hs Hl) as Hb. set (b := elem_bits sd v) in *.
  assert (Hne : suffix dd <> suffix sd) by (inversion Hs; inversion Hd; subst; intros K; discriminate K).
  assert (Hne' : suffix sd <> suffix dd) by congruence.
  (* the two conversions on bits *)
  assert (Hgo : forall w n, 0 <= w < 2 ^ 64 -> 0 <= n < 2 ^ 32 -> widen b = w -> narrow w = n ->
     exists r v', converts me sd dd v r /\ length r = 8%nat /\ converts me dd sd r v' /\ length v' = 4%nat /\ elem_bits dd r = w /\ elem_bits sd v' = n).
  { intros w n Hw Hn Ew En.
    destruct (scalar_conv me sd dd ts td v (widen b) Ts Td Bd Hne) as (r & C & L & B).
    { unfold scalar_bits. rewrite Kd, Ks. reflexivity. }
    rewrite (pow256 td 64 Wd), Ew, Z.mod_small in B by auto.
    destruct (scalar_conv me dd sd td ts r (narrow w) Td Ts Bs Hne') as (v' & C' & L' & B').
    { unfold scalar_bits. rewrite Ks, Kd, B. reflexivity. }
    rewrite (pow256 ts 32 Ws), En, Z.mod_small in B' by auto.
    exists r, v'. split; [exact C|]. split; [lia|]. split; [exact C'|]. split; [lia|]. auto. }
  assert (S32 : 2 ^ 32 = 2 * f_signbit fmt32) by reflexivity. assert (S64 : 2 ^ 64 = 2 * f_signbit fmt64) by reflexivity.
  assert (M32 : 0 < f_mw fmt32) by reflexivity. assert (M64 : 0 < f_mw fmt64) by reflexivity.
  assert (E32 : 2 <= f_ew fmt32) by discriminate. assert (E64 : 2 <= f_ew fmt64) by discriminate.
  change (23 + 8 + 1) with 32 in Hb. rewrite S32 in Hb.
  destruct (decode_cases fmt32 M32 E32 b Hb) as [(s & m & e & _ & C & Eb)|[(s & _ & Eb)|(s & p & _ & Hp & Eb)]].
  - destruct (widen_fin s m e C) as (m' & e' & C' & Ew & En & Ev). rewrite <- Eb in Ew, En.
    pose proof (enc_range fmt64 M64 E64 m' e' C') as R'. pose proof (inf_lt fmt64 M64 E64) as I64.
    rewrite inf_eq in I64.
    destruct (Hgo (f_sign fmt64 s + enc fmt64 m' e') b ltac:(rewrite S64; apply sign_range; auto; lia) ltac:(rewrite S32; exact Hb) Ew En) as (r & v' & C1 & L1 & C2 & L2 & B1 & B2).
    exists r, v'. split; [exact C1|]. split; [exact L1|]. split; [exact C2|]. split; [exact L2|]. cbv zeta. rewrite B1, B2.
    destruct (spec_fin fmt32 M32 E32 s m e C) as (P1 & P2 & P3). destruct (spec_fin_flags fmt32 M32 E32 s m e C) as (P4 & P5).
    destruct (spec_fin fmt64 M64 E64 s m' e' C') as (Q1 & Q2 & Q3). destruct (spec_fin_flags fmt64 M64 E64 s m' e' C') as (Q4 & Q5).
    rewrite <- Eb in P1, P2, P3, P4, P5. cbn [f_mw f_ew fmt32 fmt64] in *.
    split; [congruence|]. split; [congruence|]. split; [congruence|]. split.
    + intros _. split; [exact Q1|]. rewrite Q3, P3. unfold same_scaled. change (fl_unit 52 11) with (-1074). change (fl_unit 23 8) with (-149).
      change (Z.min (-1074) (-149)) with (-1074). change (-1074 - -1074) with 0. change (f_emin fmt32) with (-149). change (f_emin fmt64) with (-1074).
      rewrite Z.pow_0_r, Z.mul_1_r. destruct C as [_ Ce _ _]. change (f_emin fmt32) with (-149) in Ce.
      rewrite (mul_pow_split m e (-149) (-1074)) by lia.
      replace (e' - -1074) with (e' + 1074) by lia. replace (e - -1074) with (e + 1074) by lia. exact Ev.
    + rewrite P4. reflexivity.
  - destruct (widen_inf s) as [Ew En]. rewrite <- Eb in Ew, En.
    destruct (Hgo (f_sign fmt64 s + f_infbits fmt64) b ltac:(rewrite S64; apply sign_range; auto; apply inf_lt; auto) ltac:(rewrite S32; exact Hb) Ew En) as (r & v' & C1 & L1 & C2 & L2 & B1 & B2).
    exists r, v'. split; [exact C1|]. split; [exact L1|]. split; [exact C2|]. split; [exact L2|]. cbv zeta. rewrite B1, B2.
    destruct (spec_nonfin fmt32 M32 E32 s 0 ltac:(split; [discriminate|reflexivity])) as (P1 & P2 & P3 & P4).
    destruct (spec_nonfin fmt64 M64 E64 s 0 ltac:(split; [discriminate|reflexivity])) as (Q1 & Q2 & Q3 & Q4).
    rewrite Z.add_0_r, <- Eb in P1, P2, P3, P4. rewrite Z.add_0_r in Q1, Q2, Q3, Q4. cbn [f_mw f_ew fmt32 fmt64] in *.
    split; [congruence|]. split; [congruence|]. split; [congruence|]. split; [intros K; contradiction|]. rewrite P1. reflexivity.
  - change (2 ^ f_mw fmt32) with 8388608 in Hp. destruct (widen_nan s p Hp) as (p' & Hp' & Ew & En). rewrite <- Eb in Ew.
    assert (Rl : 0 <= Z.lor p (2 ^ 22) < 2 ^ 23).
    { apply lor_range; [discriminate|change (2 ^ 23) with 8388608; lia|split; [discriminate|reflexivity]]. }
    destruct (Hgo (f_sign fmt64 s + f_infbits fmt64 + p') (f_sign fmt32 s + f_infbits fmt32 + Z.lor p (2 ^ 22)) ltac:(rewrite S64; rewrite <- Z.add_assoc; apply sign_range; auto; change (f_infbits fmt64) with 9218868437227405312; change (f_signbit fmt64) with 9223372036854775808; lia)
      ltac:(rewrite S32; rewrite <- Z.add_assoc; apply sign_range; auto; change (f_infbits fmt32) with 2139095040; change (f_signbit fmt32) with 2147483648; change (2 ^ 23) with 8388608 in Rl; lia) Ew En) as (r & v' & C1 & L1 & C2 & L2 & B1 & B2).
    exists r, v'. split; [exact C1|]. split; [exact L1|]. split; [exact C2|]. split; [exact L2|]. cbv zeta. rewrite B1, B2.
    destruct (spec_nonfin fmt32 M32 E32 s p ltac:(change (2 ^ f_mw fmt32) with 8388608; lia)) as (P1 & P2 & P3 & P4).
    destruct (spec_nonfin fmt64 M64 E64 s p' ltac:(change (2 ^ f_mw fmt64) with 4503599627370496; lia)) as (Q1 & Q2 & Q3 & Q4).
    rewrite Z.add_assoc, <- Eb in P1, P2, P3, P4. rewrite Z.add_assoc in Q1, Q2, Q3, Q4. cbn [f_mw f_ew fmt32 fmt64] in *.
    replace (p =? 0) with false in * by (symmetry; apply Z.eqb_neq; lia). replace (p' =? 0) with false in * by (symmetry; apply Z.eqb_neq; lia).
    split; [congruence|]. split; [congruence|]. split; [congruence|]. split; [intros K; contradiction|]. rewrite P1. cbn [negb].
    rewrite Eb. replace (f_sign fmt32 s + f_infbits fmt32) with ((if s then 511 else 255) * 2 ^ 23) by (destruct s; reflexivity).
    symmetry. apply lor_mul_add; [discriminate|change (2 ^ 23) with 8388608; lia|split; [discriminate|reflexivity]].
Qed.

(* integers in the 64-bit format *)
Lemma int_f8 z : Z.abs z <= 2 ^ 32 -> let b := f_encode fmt64 52 (FFin (z <? 0) (Z.abs z) 0) in
  0 <= b < 2 ^ 64 /\ f_trunc (f_decode fmt64 b) = Some z /\ fl_finite 52 11 b /\ fl_signed 52 11 b = z * 2 ^ 1074.
Proof.
  intros Hz b.
  assert (M64 : 0 < f_mw fmt64) by reflexivity. assert (E64 : 2 <= f_ew fmt64) by discriminate.
  assert (S64 : 2 ^ 64 = 2 * f_signbit fmt64) by reflexivity.
  change (2 ^ 32) with 4294967296 in Hz.
  assert (H : exists m e, canon fmt64 m e /\ -1074 <= e <= 0 /\ m = Z.abs z * 2 ^ (0 - e) /\ b = f_sign fmt64 (z <? 0) + enc fmt64 m e \/ z = 0 /\ b = 0).
  { destruct (Z.eq_dec z 0) as [->|Hne]; [exists 0, 0; right; split; reflexivity|].
    destruct (fits_canon fmt64 M64 E64 (Z.abs z) 0) as (m & e & C & Hm & He & Eq).
    { change (2 * 2 ^ f_mw fmt64) with 9007199254740992. lia. }
    { discriminate. }
    { reflexivity. }
    exists m, e. left. split; [exact C|]. destruct C as [C1 C2 C3 C4]. change (f_emin fmt64) with (-1074) in C2. split; [lia|]. split; [exact Eq|].
    unfold b. cbn [f_encode]. f_equal. apply (round_canon fmt64 M64); [lia|exact Hm|constructor; auto|]. right. split; [lia|exact Eq]. }
  destruct H as (m & e & [(C & He & Eq & Eb)|[-> Eb]]).
  - pose proof (enc_range fmt64 M64 E64 m e C) as R'. pose proof (inf_lt fmt64 M64 E64) as I64. rewrite inf_eq in I64.
    split; [rewrite S64, Eb; apply sign_range; auto; lia|].
    destruct (spec_fin fmt64 M64 E64 (z <? 0) m e C) as (Q1 & Q2 & Q3). rewrite <- Eb in Q1, Q2, Q3. cbn [f_mw f_ew fmt64] in Q1, Q2, Q3.
    split; [|split; [exact Q1|]].
    + rewrite Eb, (decode_enc fmt64 M64 E64) by auto. cbn [f_trunc].
      assert (Hpos : 0 < 2 ^ (0 - e)) by (apply Z.pow_pos_nonneg; lia).
      assert (Ha : (if 0 <=? e then m * 2 ^ e else m / 2 ^ (- e)) = Z.abs z).
      { destruct (0 <=? e) eqn:E0.
        - assert (e = 0) by lia. subst e. rewrite Eq. change (2 ^ (0 - 0)) with 1. change (2 ^ 0) with 1. lia.
        - rewrite Eq. replace (- e) with (0 - e) by lia. apply Z.div_mul. lia. }
      rewrite Ha. destruct (z <? 0) eqn:Es; f_equal; lia.
    + unfold fl_signed. rewrite Q2, Q3. change (f_emin fmt64) with (-1074). rewrite Eq.
      rewrite (mul_pow_split (Z.abs z) 0 e (-1074)) by lia. change (0 - -1074) with 1074.
      set (g := 2 ^ 1074). destruct (z <? 0) eqn:Es; rewrite <- ?Z.mul_opp_l; f_equal; lia.
  - rewrite Eb. split; [split; [discriminate|reflexivity]|].
    destruct (spec_fin fmt64 M64 E64 false 0 (f_emin fmt64) (zero_canon fmt64 M64 E64)) as (Q1 & Q2 & Q3).
    change (f_sign fmt64 false + enc fmt64 0 (f_emin fmt64)) with 0 in *. cbn [f_mw f_ew fmt64] in Q1, Q2, Q3.
    split; [|split; [exact Q1|]].
    + change (f_decode fmt64 0) with (FFin false 0 (-1074)). cbn [f_trunc]. change (0 <=? -1074) with false. cbv iota. rewrite Z.div_0_l; [reflexivity|].
      apply Z.pow_nonzero; lia.
    + unfold fl_signed. rewrite Q2, Q3. rewrite !Z.mul_0_l. reflexivity.
Qed.

Lemma int_f8_int me sd sg dd v : int_type sd 32 sg -> float_type dd 52 11 -> length v = 4%nat ->
  exists r, converts me sd dd v r /\ length r = 8%nat /\ converts me dd sd r v /\
    fl_finite 52 11 (elem_bits dd r) /\ same_scaled (fl_signed 52 11 (elem_bits dd r)) (fl_unit 52 11) (int_value sd 32 sg v) 0.
Proof.
  intros Hs Hd Hl.
  destruct (int_sty _ _ _ Hs) as (ts & Ts & Ks & Ws & _). destruct (float_sty _ _ _ Hd) as (td & Td & Kd & Wd & Bd & _).
  assert (Hne : suffix dd <> suffix sd) by (inversion Hs; inversion Hd; subst; intros K; discriminate K).
  assert (Hne' : suffix sd <> suffix dd) by congruence.
  assert (HtB : ts <> B1) by (intros ->; discriminate Ws).
  pose proof (int_value_range sd 32 sg v Hs Hl) as Hin. pose proof (int_value_of sd 32 sg ts v Hs Ws) as Hv.
  set (z := int_value sd 32 sg v) in *.
  assert (Hz : Z.abs z <= 2 ^ 32).
  { change (2 ^ 32) with 4294967296. unfold in_type in Hin. change (2 ^ (32 - 1)) with 2147483648 in Hin. change (2 ^ 32) with 4294967296 in Hin. destruct sg; lia. }
  destruct (int_f8 z Hz) as (Hr & Ht & Hf & Hval). set (b := f_encode fmt64 52 (FFin (z <? 0) (Z.abs z) 0)) in *.
  destruct (scalar_conv me sd dd ts td v b Ts Td Bd Hne) as (r & C & L & B).
  { unfold scalar_bits. rewrite Kd, Ks. rewrite Hv. reflexivity. }
  rewrite (pow256 td 64 Wd), Z.mod_small in B by auto.
  destruct (scalar_conv me dd sd td ts r (z mod 2 ^ 32) Td Ts HtB Hne') as (v' & C' & L' & B').
  { unfold scalar_bits. rewrite Ks, Kd, B. change (mkFmt 52 11) with fmt64. rewrite Ht. rewrite <- Ws.
    replace (int_in_range sg (sty_size ts) z) with true; [reflexivity|]. symmetry. unfold int_in_range. rewrite <- Ws. unfold in_type in Hin.
    destruct sg; apply andb_true_iff; split; [apply Z.leb_le|apply Z.ltb_lt|apply Z.leb_le|apply Z.ltb_lt]; apply Hin. }
  exists r. split; [exact C|]. split; [lia|]. split.
  - replace v with v'; [exact C'|]. apply (bits_inj sd); [apply Ts|lia|]. rewrite B'. 
    rewrite (pow256 ts 32) by lia. rewrite Z.mod_mod by lia. unfold z. rewrite int_value_mod.
    apply Z.mod_small. pose proof (bits_range sd v (proj1 Ts)) as HR. rewrite Hl in HR. exact HR.
  - rewrite B. split; [exact Hf|]. rewrite Hval. unfold same_scaled. change (fl_unit 52 11) with (-1074).
    change (Z.min (-1074) 0) with (-1074). change (-1074 - -1074) with 0. change (0 - -1074) with 1074. rewrite Z.pow_0_r. lia.
Qed.

(* ------------------------------------------------------------------ *)
(* Rounding. *)
Lemma scale_abs a b c x y B B' : B' <= B -> a * 2 ^ (B - B') = x -> b * 2 ^ (B - B') = y -> Z.abs (a - b) <= c -> Z.abs (x - y) <= c * 2 ^ (B - B').
Proof.
  intros HB <- <- H. assert (0 < 2 ^ (B - B')) by (apply Z.pow_pos_nonneg; lia).
  rewrite <- Z.mul_sub_distr_r, Z.abs_mul, (Z.abs_eq (2 ^ (B - B'))) by lia. apply Z.mul_le_mono_nonneg_r; lia.
Qed.
Lemma nearest_scale mw ew M E E' r : E' <= E -> nearest mw ew M E r -> nearest mw ew (M * 2 ^ (E - E')) E' r.
Proof.
  intros HE H x Hx Hf. specialize (H x Hx Hf). cbv zeta in H. set (u := fl_unit mw ew) in *.
  set (B := Z.min E u) in *. set (B' := Z.min E' u) in *. assert (HB : B' <= B /\ B <= E /\ B <= u /\ B' <= E') by lia.
  rewrite (mul_pow_split M E E' B') by lia.
  replace (M * 2 ^ (E - B')) with (M * 2 ^ (E - B) * 2 ^ (B - B')) by (apply mul_pow_split; lia).
  rewrite <- !(mul_pow_split _ u B B') by lia. rewrite <- !Z.mul_sub_distr_r, !Z.abs_mul.
  apply Z.mul_le_mono_nonneg_r; [apply Z.abs_nonneg|exact H].
Qed.
Lemma too_large_scale mw ew M E E' : 2 <= ew -> E' <= E -> too_large mw ew M E -> too_large mw ew (M * 2 ^ (E - E')) E'.
Proof.
  intros Hew HE H. unfold too_large in *. set (u := fl_unit mw ew) in *. cbv zeta in *.
  set (B := Z.min E u) in *. set (B' := Z.min E' u) in *. assert (HB : B' <= B /\ B <= E /\ B <= u /\ B' <= E') by lia.
  assert (Hp : 0 < 2 ^ (E - E')) by (apply Z.pow_pos_nonneg; lia). rewrite Z.abs_mul, (Z.abs_eq (2 ^ (E - E'))) by lia.
  rewrite (mul_pow_split (Z.abs M) E E' B') by lia.
  assert (H4 : 4 <= 2 ^ ew) by (replace 4 with (2 ^ 2) by reflexivity; apply Z.pow_le_mono_r; lia).
  rewrite <- (mul_pow_split (4 * 2 ^ mw - 1) (2 ^ ew - 3 + u) B B') by lia.
  rewrite <- (mul_pow_split (Z.abs M) E B B') by lia.
  assert (Hq : 0 < 2 ^ (B - B')) by (apply Z.pow_pos_nonneg; lia). rewrite Z.mul_assoc. apply Z.mul_le_mono_nonneg_r; lia.
Qed.

Lemma encode_rounded mw ew mw0 s M E : 0 < mw -> 2 <= ew -> 0 <= M ->
  let b := f_encode (mkFmt mw ew) mw0 (FFin s M E) in
  0 <= b < 2 ^ (mw + ew + 1) /\ rounded mw ew (if s then - M else M) E b.
Proof.
  intros H1 H2 HM b. set (f := mkFmt mw ew). assert (F1 : 0 < f_mw f) by auto. assert (F2 : 2 <= f_ew f) by auto.
  pose proof (round_range f M E F1 F2 HM) as R. pose proof (inf_lt f F1 F2) as I.
  split; [rewrite (signbit2 mw ew H1 H2); apply sign_range; auto; unfold f in *; lia|].
  destruct (round_nearest f F1 F2 s M E HM) as [[A B]|[A B]]; [left; split; [exact A|exact B]|].
  right. destruct (spec_nonfin f F1 F2 s 0) as (P1 & P2 & P3 & _).
  { split; [lia|]. apply Z.pow_pos_nonneg; lia. }
  rewrite Z.add_0_r, <- A in P1, P2, P3. split; [exact P2|]. split; [|exact B].
  intros Hne. transitivity s; [exact P3|]. destruct s; lia.
Qed.

(* f8 -> f4 *)
Lemma f8_f4 me sd dd v : float_type sd 52 11 -> float_type dd 23 8 -> length v = 8%nat -> fl_finite 52 11 (elem_bits sd v) ->
  exists r, converts me sd dd v r /\ length r = 4%nat /\
    rounded 23 8 (fl_signed 52 11 (elem_bits sd v)) (fl_unit 52 11) (elem_bits dd r).
Proof.
  intros Hs Hd Hl Hf.
  destruct (float_sty _ _ _ Hs) as (ts & Ts & Ks & Ws & Bs & _). destruct (float_sty _ _ _ Hd) as (td & Td & Kd & Wd & Bd & _).
  pose proof (float_bits sd 52 11 v Hs Hl) as Hb. set (b := elem_bits sd v) in *.
  assert (Hne : suffix dd <> suffix sd) by (inversion Hs; inversion Hd; subst; intros K; discriminate K).
  assert (M64 : 0 < f_mw fmt64) by reflexivity. assert (E64 : 2 <= f_ew fmt64) by discriminate.
  destruct (decode_finite fmt64 M64 E64 b Hb Hf) as (s & m & e & D & C & Eb).
  destruct (spec_fin fmt64 M64 E64 s m e C) as (_ & P2 & P3). rewrite <- Eb in P2, P3. cbn [f_mw f_ew fmt64] in P2, P3.
  destruct C as [C1 C2 _ _].
  destruct (encode_rounded 23 8 52 s m e ltac:(lia) ltac:(lia) ltac:(lia)) as [R1 R2].
  set (n := f_encode (mkFmt 23 8) 52 (FFin s m e)) in *.
  destruct (scalar_conv me sd dd ts td v n Ts Td Bd Hne) as (r & Cv & L & B).
  { unfold scalar_bits. rewrite Kd, Ks. change (mkFmt 52 11) with fmt64. fold b. rewrite D. reflexivity. }
  rewrite (pow256 td 32 Wd), Z.mod_small in B by exact R1.
  exists r. split; [exact Cv|]. split; [lia|]. rewrite B.
  assert (Ev : fl_signed 52 11 b = (if s then - m else m) * 2 ^ (e - -1074)).
  { unfold fl_signed. rewrite P2, P3. change (f_emin fmt64) with (-1074). destruct s; lia. }
  change (f_emin fmt64) with (-1074) in C2.
  rewrite Ev. change (fl_unit 52 11) with (-1074).
  assert (Hpos : 0 < 2 ^ (e - -1074)) by (apply Z.pow_pos_nonneg; lia).
  destruct R2 as [[A1 A2]|(A1 & A2 & A3)]; [left; split; [exact A1|apply nearest_scale; auto]|].
  right. split; [exact A1|]. split; [|apply too_large_scale; auto; lia].
  intros Hn. rewrite A2 by (intros K; rewrite K in Hn; lia). set (x := if s then - m else m) in *. nia.
Qed.

(* integers to floating point *)
Lemma int_float me sd ws sg dd mw ew v : int_type sd ws sg -> float_type dd mw ew -> length v = Z.to_nat (ws / 8) ->
  exists r, converts me sd dd v r /\ length r = Z.to_nat ((mw + ew + 1) / 8) /\
    rounded mw ew (int_value sd ws sg v) 0 (elem_bits dd r).
Proof.
  intros Hs Hd Hl.
  destruct (int_sty _ _ _ Hs) as (ts & Ts & Ks & Ws & _). destruct (float_sty _ _ _ Hd) as (td & Td & Kd & Wd & Bd & Hmw & Hew).
  assert (Hne : suffix dd <> suffix sd) by (inversion Hs; inversion Hd; subst; intros K; discriminate K).
  pose proof (int_value_of sd ws sg ts v Hs Ws) as Hv. set (z := int_value sd ws sg v) in *.
  destruct (encode_rounded mw ew mw (z <? 0) (Z.abs z) 0 Hmw Hew (Z.abs_nonneg z)) as [R1 R2].
  set (n := f_encode (mkFmt mw ew) mw (FFin (z <? 0) (Z.abs z) 0)) in *.
  destruct (scalar_conv me sd dd ts td v n Ts Td Bd Hne) as (r & Cv & L & B).
  { unfold scalar_bits. rewrite Kd, Ks. rewrite Hv. reflexivity. }
  rewrite (pow256 td _ Wd), Z.mod_small in B by exact R1.
  exists r. split; [exact Cv|]. split; [rewrite L, <- Wd; lia|]. rewrite B.
  replace (if z <? 0 then - Z.abs z else Z.abs z) with z in R2 by (destruct (z <? 0) eqn:E; lia). exact R2.
Qed.

(* ------------------------------------------------------------------ *)
(* Complex. *)
Lemma parts_app (a b : bytes) : length a = length b -> real_part (a ++ b) = a /\ imag_part (a ++ b) = b.
Proof.
  intros H. unfold real_part, imag_part. rewrite app_length. replace ((length a + length b) / 2)%nat with (length a).
  - rewrite firstn_app, firstn_all, Nat.sub_diag, skipn_app, skipn_all, Nat.sub_diag. simpl. rewrite app_nil_r. auto.
  - rewrite H. replace (length b + length b)%nat with (length b * 2)%nat by lia. rewrite Nat.div_mul; lia.
Qed.
Lemma scalar_ff me d s fd fs l : sty_kind d = KFlt fd -> sty_kind s = KFlt fs ->
  exists z, scalar_cast me d s l = Ret (nat_enc me (sty_size d) z).
Proof. intros H1 H2. unfold scalar_cast, scalar_bits. rewrite H1, H2. cbn [bind]. eauto. Qed.

Lemma native_cases me c r : (c = "<"%byte \/ c = ">"%byte) -> dt_native me (c :: r) = Byte.eqb c (machine_char me).
Proof. reflexivity. Qed.

(* a is the real part and b the imaginary part of an element of type sd;
   x and y are their conversions *)
Lemma complex_conv me cs cd ss ds ps pd ks kd a b : 
  (cs = "<"%byte \/ cs = ">"%byte) -> (cd = "<"%byte \/ cd = ">"%byte) ->
  complex_type (cs :: ss) (cs :: ps) ks -> complex_type (cd :: ds) (cd :: pd) kd ->
  length a = ks -> length b = ks ->
  exists x y, length x = kd /\ length y = kd /\ converts me (cs :: ps) (cd :: pd) a x /\ converts me (cs :: ps) (cd :: pd) b y /\
    converts me (cs :: ss) (cd :: ds) (a ++ b) (if Byte.eqb cs cd then x ++ y else y ++ x).
Proof.
  intros Hcs Hcd Hs Hd La Lb.
  assert (Hgen : forall (f : bytes -> bytes),
     (forall l, length l = ks -> length (f l) = kd) ->
     (forall l, conv_elem me (cs :: ps) (cd :: pd) l =
         Some (Ret (reorder me (cd :: pd) (f (reorder me (cs :: ps) l))))) ->
     (forall v l1 l2, length l1 = ks -> reorder me (cs :: ss) v = l1 ++ l2 ->
        conv_elem me (cs :: ss) (cd :: ds) v = Some (Ret (reorder me (cd :: ds) (f l1 ++ f l2)))) ->
     exists x y, length x = kd /\ length y = kd /\ converts me (cs :: ps) (cd :: pd) a x /\ converts me (cs :: ps) (cd :: pd) b y /\
       converts me (cs :: ss) (cd :: ds) (a ++ b) (if Byte.eqb cs cd then x ++ y else y ++ x)).
  { intros f Hlen Hpart Hwhole. unfold converts.
    exists (reorder me (cd :: pd) (f (reorder me (cs :: ps) a))), (reorder me (cd :: pd) (f (reorder me (cs :: ps) b))).
    split; [rewrite reorder_len; apply Hlen; rewrite reorder_len; auto|].
    split; [rewrite reorder_len; apply Hlen; rewrite reorder_len; auto|].
    split; [apply Hpart|]. split; [apply Hpart|].
    assert (HL : length (rev b) = ks) by (rewrite rev_length; auto).
    destruct Hcs as [-> | ->], Hcd as [-> | ->], me;
      (rewrite (Hwhole (a ++ b) a b La eq_refl) || rewrite (Hwhole (a ++ b) (rev b) (rev a) HL (rev_app_distr a b)));
      unfold reorder; cbn; rewrite ?rev_app_distr; reflexivity. }
  assert (Hcast : forall td ts, (exists fd, sty_kind td = KFlt fd) -> (exists fs, sty_kind ts = KFlt fs) -> ks = sty_size ts -> kd = sty_size td ->
    sty_of ps = Some ts -> sty_of pd = Some td -> bytes_eqb pd ps = false ->
    cast_table me pd ps = Some (sty_size ts, sty_size td, scalar_cast me td ts) ->
    bytes_eqb ds ss = false -> (exists n1 n2, cast_table me ds ss = Some (n1, n2, cplx_cast me td ts)) ->
    exists x y, length x = kd /\ length y = kd /\ converts me (cs :: ps) (cd :: pd) a x /\ converts me (cs :: ps) (cd :: pd) b y /\
       converts me (cs :: ss) (cd :: ds) (a ++ b) (if Byte.eqb cs cd then x ++ y else y ++ x)).
  { intros td ts (fd & Kd) (fs & Ks) Eks Ekd _ _ Hne Hct Hne2 (n1 & n2 & Hct2).
    apply (Hgen (fun l => match scalar_cast me td ts l with Ret r => r | _ => [] end)).
    - intros l _. destruct (scalar_ff me td ts fd fs l Kd Ks) as [z ->]. rewrite nat_enc_len. auto.
    - intros l. unfold conv_elem. cbn [suffix skipn tl]. rewrite Hne, Hct.
      destruct (scalar_ff me td ts fd fs (reorder me (cs :: ps) l) Kd Ks) as [z ->]. reflexivity.
    - intros v l1 l2 H1 Hv. unfold conv_elem. cbn [suffix skipn tl]. rewrite Hne2, Hct2. rewrite Hv.
      unfold cplx_cast. rewrite firstn_app, skipn_app. rewrite <- Eks, <- H1, firstn_all, skipn_all, Nat.sub_diag. cbn [firstn skipn].
      rewrite app_nil_r, app_nil_l.
      destruct (scalar_ff me td ts fd fs l1 Kd Ks) as [z1 ->]. destruct (scalar_ff me td ts fd fs l2 Kd Ks) as [z2 ->]. reflexivity. }
  inversion Hs; subst; inversion Hd; subst.
  - apply (Hgen (fun l => l)); [intros l Hll; congruence|reflexivity|]. intros v l1 l2 _ Hv. unfold conv_elem. cbn [suffix skipn tl]. rewrite bytes_eqb_refl, Hv. reflexivity.
  - apply (Hcast F8 F4); try reflexivity; eauto.
    + eexists; reflexivity.
    + eexists; reflexivity.
    + eexists _, _; reflexivity.
  - apply (Hcast F4 F8); try reflexivity; eauto.
    + eexists; reflexivity.
    + eexists; reflexivity.
    + eexists _, _; reflexivity.
  - apply (Hgen (fun l => l)); [intros l Hll; congruence|reflexivity|]. intros v l1 l2 _ Hv. unfold conv_elem. cbn [suffix skipn tl]. rewrite bytes_eqb_refl, Hv. reflexivity.
Qed.

Lemma split_half (v : bytes) k : length v = (k + k)%nat -> v = real_part v ++ imag_part v /\ length (real_part v) = k /\ length (imag_part v) = k.
Proof.
  intros H. unfold real_part, imag_part. rewrite H. replace ((k + k) / 2)%nat with k.
  - split; [symmetry; apply firstn_skipn|]. rewrite firstn_length, skipn_length. lia.
  - replace (k + k)%nat with (k * 2)%nat by lia. rewrite Nat.div_mul; lia.
Qed.
Lemma complex_head d p k : complex_type d p k -> exists c s q, d = c :: s /\ p = c :: q /\ (c = "<"%byte \/ c = ">"%byte).
Proof. intros H; inversion H; subst; eexists _, _, _; split; try reflexivity; split; try reflexivity; auto. Qed.

Lemma complex_parts me sd ps ks dd pd kd v : complex_type sd ps ks -> complex_type dd pd kd -> length v = (ks + ks)%nat ->
  exists x y, converts me ps pd (real_part v) x /\ converts me ps pd (imag_part v) y /\
    exists r, converts me sd dd v r /\
      (firstn 1 sd = firstn 1 dd -> real_part r = x /\ imag_part r = y) /\
      (firstn 1 sd <> firstn 1 dd -> real_part r = y /\ imag_part r = x).
Proof.
  intros Hs Hd Hl. destruct (split_half v ks Hl) as (Ev & L1 & L2).
  destruct (complex_head _ _ _ Hs) as (cs & ss & qs & -> & -> & Hcs). destruct (complex_head _ _ _ Hd) as (cd & ds & qd & -> & -> & Hcd).
  destruct (complex_conv me cs cd ss ds qs qd ks kd (real_part v) (imag_part v) Hcs Hcd Hs Hd L1 L2) as (x & y & Lx & Ly & Cx & Cy & C).
  exists x, y. split; [exact Cx|]. split; [exact Cy|]. rewrite <- Ev in C. eexists. split; [exact C|]. cbn [firstn].
  destruct (Byte.eqb cs cd) eqn:E.
  - apply Byte.byte_dec_bl in E. subst cd. split; [intros _; apply parts_app; congruence|intros K; exfalso; apply K; reflexivity].
  - split; [|intros _; apply parts_app; congruence]. intros K. injection K as ->. rewrite Byte.byte_dec_lb in E by reflexivity. discriminate E.
Qed.
