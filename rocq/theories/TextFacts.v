(* Proofs about the text format of attribute files. *)
From Coq.Strings Require Import Byte String.
From Coq Require Import List ZArith Lia Bool ZifyBool ZifyNat Sorted Permutation.
From Verif Require Import Base BaseFacts Dtype Cast Array FS Fmt Attr Block Spec AttrSpec HeaderFacts DtypeFacts AttrFacts.
Import ListNotations.
Open Scope Z_scope.
Local Open Scope out_scope.
Ltac Zify.zify_post_hook ::= Z.div_mod_to_equations.

(* Text without newline and NUL. *)
Definition clean (t : bytes) : Prop := Forall (fun c => c <> x0a /\ c <> x00) t.
(* A token: no blank, newline or NUL. *)
Definition tok (t : bytes) : Prop := t <> [] /\ Forall (fun c => isblank c = false /\ c <> x0a /\ c <> x00) t.

Lemma clean_app a b : clean a -> clean b -> clean (a ++ b).
Proof. intros. apply Forall_app. auto. Qed.

Lemma digit_char_clean c d : xval c = Some d -> isblank c = false /\ c <> x0a /\ c <> x00.
Proof. destruct c; vm_compute; intros H; try discriminate; repeat split; discriminate. Qed.

Lemma all_dig_tok base l : all_dig base l -> l <> [] -> tok l.
Proof.
  intros H Hn. split; auto. eapply Forall_impl; [|exact H]. intros c (d & _ & Hx). eapply digit_char_clean; eauto.
Qed.
Lemma tok_clean t : tok t -> clean t.
Proof. intros [_ H]. eapply Forall_impl; [|exact H]. cbv beta. tauto. Qed.

Lemma print_unsigned_tok z : 0 <= z -> tok (print_unsigned z).
Proof. intros. eapply all_dig_tok; [apply print_unsigned_dig; auto|apply print_unsigned_nonnil]. Qed.
Lemma print_unsigned_clean z : 0 <= z -> clean (print_unsigned z).
Proof. intros. apply tok_clean, print_unsigned_tok. auto. Qed.
Lemma print_signed_clean z : clean (print_signed z).
Proof.
  unfold print_signed. destruct (z <? 0) eqn:E; [constructor; [split; discriminate|]|]; apply print_unsigned_clean; lia.
Qed.
Lemma print_signed_tok z : 0 <= z -> tok (print_signed z).
Proof. intros. unfold print_signed. destruct (z <? 0) eqn:E; [lia|]. apply print_unsigned_tok. auto. Qed.

(* ------------------------------------------------------- tokens *)
Lemma take_token_spec t r : Forall (fun c => isblank c = false /\ c <> x0a /\ c <> x00) t ->
  take_token (t ++ lit " " ++ r) = Ret (t, r).
Proof.
  induction 1 as [|c t [Hc _] Ht IH]; [reflexivity|]. cbn [app take_token]. rewrite Hc, IH. reflexivity.
Qed.

Lemma until_nul_tok t : Forall (fun c => isblank c = false /\ c <> x0a /\ c <> x00) t -> until_nul t = t.
Proof.
  unfold until_nul. induction 1 as [|c t (_ & _ & Hc) Ht IH]; [reflexivity|]. apply byte_eqb_neq in Hc. rewrite Hc, IH. reflexivity.
Qed.

Lemma expect_spec t r : tok t -> expect (t ++ lit " " ++ r) = Ret (t, r).
Proof.
  intros [Hn H]. unfold expect.
  assert (E : skip_blank (t ++ lit " " ++ r) = t ++ lit " " ++ r).
  { destruct H as [|c t [Hc _] Ht]; [congruence|]. cbn [app skip_blank]. rewrite Hc. reflexivity. }
  rewrite E. destruct t as [|c t]; [congruence|]. pose proof (take_token_spec (c :: t) r H) as Et.
  cbn [app] in Et |- *. cbv iota. rewrite Et. cbn [bind]. rewrite until_nul_tok by auto. reflexivity.
Qed.

Lemma skip_line_spec t r : clean t -> skip_line (t ++ x0a :: r) = Ret r.
Proof.
  induction 1 as [|c t [H1 H2] Ht IH]; [reflexivity|]. cbn [app skip_line].
  apply byte_eqb_neq in H1, H2. rewrite H1, H2. exact IH.
Qed.

(* ------------------------------------------------------- hexadecimal *)
Lemma strtol16_byte b : strtol16 (until_nul [xdigit (b2z b / 16); xdigit (b2z b mod 16)]) = b2z b.
Proof. destruct b; vm_compute; reflexivity. Qed.

Lemma hex_round l : hex_bytes (hex_print l) = l.
Proof.
  induction l as [|b l IH]; [reflexivity|]. cbn [hex_print hex_bytes]. rewrite strtol16_byte, z2b_b2z, IH. reflexivity.
Qed.
Lemma hex_len l : zlen (hex_print l) = 2 * zlen l.
Proof. induction l as [|b l IH]; [reflexivity|]. cbn [hex_print]. rewrite !zlen_cons, IH. lia. Qed.
Lemma hex_tok l : l <> [] -> tok (hex_print l).
Proof.
  intros Hn. split; [destruct l; [congruence|discriminate]|]. clear Hn.
  induction l as [|b l IH]; cbn [hex_print]; [constructor|]. pose proof (b2z_range b).
  constructor; [eapply digit_char_clean; apply xval_xdigit; lia|].
  constructor; [eapply digit_char_clean; apply xval_xdigit; lia|auto].
Qed.

(* ------------------------------------------------------- decimal *)
Lemma xval_dec c d : xval c = Some d -> d < 10 -> is_digit c = true /\ d = b2z c - b2z "0".
Proof. destruct c; vm_compute; intros H Hd; try discriminate; inversion H; subst; try discriminate; auto. Qed.

Lemma dec_scan : forall l acc n w, all_dig 10 l -> (length l <= w)%nat ->
  scan_digits 10 acc n w l = (dec_digits acc l, (n + length l)%nat, []).
Proof.
  induction l as [|c l IH]; intros acc n w H Hw.
  - destruct w; simpl; rewrite Nat.add_0_r; auto.
  - inversion H as [|? ? (d & Hd & Hx) Hl]; subst. destruct w as [|w]; [simpl in Hw; lia|].
    cbn [scan_digits dec_digits]. rewrite Hx. replace (d <? 10) with true by lia.
    destruct (xval_dec c d Hx ltac:(lia)) as [Hc Hv]. rewrite Hc, <- Hv. simpl in Hw. rewrite IH by (auto; lia).
    f_equal. f_equal. simpl. lia.
Qed.

Lemma atoi_print z : 0 <= z < 10 ^ 64 -> atoi (print_signed z) = z.
Proof.
  intros Hz. unfold print_signed. destruct (z <? 0) eqn:E; [lia|].
  pose proof (scan_dec_unsigned z [] Hz I) as Hs. rewrite app_nil_r in Hs.
  pose proof (print_unsigned_dig z ltac:(lia)) as Hd. pose proof (print_unsigned_nonnil z) as Hn.
  set (l := print_unsigned z) in *.
  pose proof (scan_dec_dig l [] Hd Hn) as Hs2. rewrite app_nil_r in Hs2. rewrite Hs2 in Hs.
  rewrite dec_scan in Hs by auto. unfold atoi.
  pose proof (drop_space_dig 10 l [] Hd Hn) as Hds. rewrite app_nil_r in Hds. rewrite Hds.
  destruct l as [|c l]; [congruence|]. inversion Hd as [|? ? (d & _ & Hx) _]; subst.
  apply xval_char in Hx. destruct Hx as (_ & E1 & E2 & _). rewrite E1, E2.
  cbn [length plus] in Hs. congruence.
Qed.

Lemma atoi_int_print z : 0 <= z < 2 ^ 31 -> atoi_int (print_signed z) = z.
Proof.
  intros Hz. unfold atoi_int. rewrite atoi_print by lia. unfold sat_long.
  destruct (2 ^ 63 <=? z) eqn:E1; [lia|]. destruct (z <? - 2 ^ 63) eqn:E2; [lia|].
  apply s32_id. lia.
Qed.

(* ------------------------------------------------------- writer *)
(* Attributes the text format can carry. *)
Record savable (me : endian) (e : entry) : Prop := {
  sv_name : tok (fst e);
  sv_native : dt_native me (av_dtype (snd e)) = true;
  sv_dtype : tok (av_dtype (snd e));
  sv_n : 0 < av_nmemb (snd e) < 2 ^ 31;
  sv_size : zlen (av_data (snd e)) < 2 ^ 30
}.

Definition text_line (e : entry) (textual : bytes) : bytes :=
  fst e ++ lit " " ++ av_dtype (snd e) ++ lit " " ++ print_signed (av_nmemb (snd e)) ++ lit " "
   ++ hex_print (av_data (snd e)) ++ lit " #HUMANE [ " ++ textual ++ lit " ]" ++ [x0a].

Lemma native_of_id me d : dt_ok me d -> dt_native me d = true -> native_of me d = d.
Proof.
  intros [Hn _] Hd. unfold native_of. rewrite Hn. destruct d as [|c d]; [discriminate|].
  simpl in Hd. apply byte_eqb_eq in Hd. subst. reflexivity.
Qed.

Section Write.
  Variable fg : Z -> bytes.
  Hypothesis Hfg : forall z, clean (fg z).

  Lemma format_clean me d l : clean d -> nth 1 d x00 <> "a"%byte ->
    0 <= nat_val me l ->
    exists t, format_native fg me d l = Ret t /\ clean t.
  Proof.
    intros Hd Hk Hv. unfold format_native.
    destruct (bytes_eqb (suffix d) (lit "a1")) eqn:E.
    - apply bytes_eqb_eq in E. exfalso. destruct d as [|c [|c2 d]]; try discriminate. unfold suffix in E. simpl in E. inversion E. subst. apply Hk. reflexivity.
    - repeat match goal with |- context [if ?b then _ else _] => destruct b end; eexists; (split; [reflexivity|]);
        try apply print_signed_clean; try (apply print_unsigned_clean; auto); try apply Hfg;
        repeat apply clean_app; auto; try apply Hfg; repeat constructor; discriminate.
  Qed.

  Lemma nat_val_nonneg me l : 0 <= nat_val me l.
  Proof. unfold nat_val. destruct me; apply le_val_range. Qed.

  Lemma dtype_format_clean me m x d v : dt_ok me d -> dt_native me d = true -> clean d ->
    nth 1 d x00 <> "a"%byte -> itemsize me d <= 128 ->
    load m x (Z.to_nat (itemsize me d)) = Some v ->
    exists t, dtype_format fg me m x d = Ret (t, m) /\ clean t.
  Proof.
    intros Hok Hn Hc Hk H128 Hl. unfold dtype_format. rewrite native_of_id by auto.
    pose proof Hok as [Hnd Hw].
    destruct (simple_same me (malloc_mem 0 128) 0 d m x d 1 v Hw) as (dm & sm & E & A & B & C); auto; try lia.
    { rewrite Z.mul_1_l. auto. }
    { intros y Hy. unfold malloc_mem. destruct ((0 <=? y) && (y <? 0 + 128)) eqn:Ey; [discriminate|lia]. }
    rewrite E. cbn [bind]. rewrite Hnd in C. rewrite (C Hn).
    rewrite Z.max_r, Z.min_r by lia. rewrite Z.mul_1_l in A. rewrite A. cbn [or_ub bind].
    destruct (format_clean me d v) as (t & Et & Ht); auto; [apply nat_val_nonneg|]. rewrite Et. cbn [bind].
    exists t. auto.
  Qed.

  Lemma textual_clean me s a : dt_ok me (at_dtype a) -> dt_native me (at_dtype a) = true -> clean (at_dtype a) ->
    itemsize me (at_dtype a) <= 128 ->
    forall n j, 0 <= j ->
    (forall x, at_data a + j * itemsize me (at_dtype a) <= x < at_data a + (j + Z.of_nat n) * itemsize me (at_dtype a) -> as_mem s x <> None) ->
    (forall x, at_data a + j <= x < at_data a + j + Z.of_nat n -> as_mem s x <> None) ->
    exists t, textual_loop fg me (as_mem s) a (itemsize me (at_dtype a)) j n = Ret (t, as_mem s) /\ clean t.
  Proof.
    intros Hok Hn Hc H128. pose proof Hok as [_ Hw].
    induction n as [|n IH]; intros j Hj Hm Hm1; cbn [textual_loop].
    - exists []. split; auto. constructor.
    - destruct (negb (Byte.eqb (nth 1 (at_dtype a) x00) "a") && _) eqn:Ek.
      + destruct (load_some (as_mem s) (at_data a + j * itemsize me (at_dtype a)) (Z.to_nat (itemsize me (at_dtype a)))) as (v & Ev).
        { intros k Hk. apply Hm. nia. }
        destruct (dtype_format_clean me (as_mem s) (at_data a + j * itemsize me (at_dtype a)) (at_dtype a) v) as (t & Et & Ht); auto.
        { intros Hx. rewrite Hx in Ek. discriminate. }
        rewrite Et. cbn [bind]. destruct (IH (j + 1)) as (r & Er & Hr); try lia.
        { intros x Hx. apply Hm. nia. } { intros x Hx. apply Hm1. lia. }
        rewrite Er. cbn [bind]. eexists. split; [reflexivity|]. apply clean_app; auto. apply clean_app; auto.
        destruct (j =? at_nmemb a - 1); repeat constructor; discriminate.
      + destruct (as_mem s (at_data a + j)) as [b|] eqn:Eb; [|exfalso; apply (Hm1 (at_data a + j)); auto; lia].
        cbn [or_ub bind]. destruct (Byte.eqb b x0a) eqn:E1; [eexists; split; [reflexivity|]; repeat constructor; discriminate|].
        destruct (Byte.eqb b x00) eqn:E2; [eexists; split; [reflexivity|]; constructor|].
        destruct (IH (j + 1)) as (r & Er & Hr); try lia.
        { intros x Hx. apply Hm. nia. } { intros x Hx. apply Hm1. lia. }
        rewrite Er. cbn [bind]. eexists. split; [reflexivity|]. constructor; auto.
        split; intros ->; [rewrite byte_eqb_refl in E1|rewrite byte_eqb_refl in E2]; discriminate.
  Qed.

  Lemma set_mem_same s : set_mem s (as_mem s) = s.
  Proof. destruct s. reflexivity. Qed.

  Lemma attr_line_spec me s a e : rep1 me s a e -> as_bufused s <= as_bufsize s ->
    savable me e -> exists t, attr_line fg me s a = Ret (text_line e t, s) /\ clean t.
  Proof.
    intros R Hb Hs. pose proof (rep_name _ _ _ _ R Hb) as En. destruct R, Hs. unfold attr_line, text_line.
    rewrite r_dtype, r_nmemb. set (w := itemsize me (av_dtype (snd e))) in *.
    pose proof r_dt as [_ Hw]. fold w in Hw. pose proof (zlen_nonneg (av_data (snd e))).
    replace (w * av_nmemb (snd e)) with (zlen (av_data (snd e))) by lia.
    destruct ((2 ^ 30 <=? zlen (av_data (snd e))) || (zlen (av_data (snd e)) <? 0)) eqn:E; [lia|]. clear E.
    rewrite En. cbn [bind].
    replace (Z.to_nat (zlen (av_data (snd e)))) with (length (av_data (snd e))) by (unfold zlen; lia).
    rewrite r_data. cbn [or_ub bind].
    assert (Ht : exists t, (if 128 <? zlen (av_data (snd e)) then Ret (lit "... (Too Long) ", as_mem s)
       else textual_loop fg me (as_mem s) a w 0 (Z.to_nat (av_nmemb (snd e)))) = Ret (t, as_mem s) /\ clean t).
    { destruct (128 <? zlen (av_data (snd e))) eqn:E.
      - eexists. split; [reflexivity|]. repeat constructor; discriminate.
      - unfold w. rewrite <- r_dtype. apply textual_clean; rewrite ?r_dtype; auto; fold w; try lia.
        + apply tok_clean. auto.
        + intros x Hx Hxn. apply (load_mapped _ _ _ _ r_data (Z.to_nat (x - at_data a))); [unfold zlen in *; nia|].
          replace (at_data a + Z.of_nat (Z.to_nat (x - at_data a))) with x by lia. auto.
        + intros x Hx Hxn. apply (load_mapped _ _ _ _ r_data (Z.to_nat (x - at_data a))); [unfold zlen in *; nia|].
          replace (at_data a + Z.of_nat (Z.to_nat (x - at_data a))) with x by lia. auto. }
    destruct Ht as (t & Et & Hc). rewrite Et. cbn [bind]. exists t. rewrite set_mem_same. auto.
  Qed.

  Definition text_lines (es : list entry) (ts : list bytes) : bytes :=
    concat (map (fun et => text_line (fst et) (snd et)) (combine es ts)).

  Lemma attr_lines_spec me s : as_bufused s <= as_bufsize s -> forall l m, Forall2 (rep1 me s) l m ->
    Forall (savable me) m ->
    exists ts, attr_lines fg me s l = Ret (text_lines m ts, s) /\ length ts = length m /\ Forall clean ts.
  Proof.
    intros Hb. induction 1 as [|a e l m R F IH]; intros Hs; cbn [attr_lines].
    - exists []. repeat split; auto.
    - inversion Hs; subst. destruct (attr_line_spec me s a e) as (t & Et & Hc); auto. rewrite Et. cbn [bind].
      destruct IH as (ts & Ets & Hl & Hcs); auto. rewrite Ets. cbn [bind]. exists (t :: ts). repeat split; auto. simpl. auto.
  Qed.
End Write.

(* ------------------------------------------------------- reader *)
Lemma tok_no_blank t : tok t -> has_blank t = false /\ nul_free t.
Proof.
  intros [_ H]. split.
  - unfold has_blank. induction H as [|c t (H1 & H2 & _) Ht IH]; auto. cbn [existsb]. rewrite IH.
    unfold isblank in H1. apply byte_eqb_neq in H2. rewrite H2, orb_false_r. rewrite H1. reflexivity.
  - intros Hi. rewrite Forall_forall in H. apply H in Hi. tauto.
Qed.

Lemma tok_of_blank t : t <> [] -> has_blank t = false -> nul_free t -> tok t.
Proof.
  intros Hn Hb Hf. split; auto. apply Forall_forall. intros c Hc.
  assert (Hx : Byte.eqb c " " || Byte.eqb c x09 || Byte.eqb c x0a = false).
  { destruct (Byte.eqb c " " || Byte.eqb c x09 || Byte.eqb c x0a) eqn:E; auto.
    exfalso. unfold has_blank in Hb. assert (Ht : existsb (fun c => Byte.eqb c " " || Byte.eqb c x09 || Byte.eqb c x0a) t = true).
    { apply existsb_exists. exists c. auto. } congruence. }
  apply orb_false_elim in Hx. destruct Hx as [Hx1 Hx2]. split; [exact Hx1|]. split.
  - intros ->. discriminate.
  - intros ->. contradiction.
Qed.

Definition line_entry_ok (me : endian) (e : entry) : Prop :=
  dt_ok me (av_dtype (snd e)) /\ zlen (av_data (snd e)) = av_nmemb (snd e) * itemsize me (av_dtype (snd e)).

Definition esize (e : entry) : Z := zlen (av_data (snd e)) + zlen (fst e) + 1.

Lemma read_line_spec ra me s m e t r k : as_ok me s m -> savable me e -> line_entry_ok me e -> clean t ->
  as_bufused s + esize e <= 2 ^ 61 ->
  exists s' m', read_v2_loop ra me s (text_line e t ++ r) (S k) = read_v2_loop ra me s' r k /\
    as_ok me s' m' /\ as_bufused s' = as_bufused s + esize e /\
    (forall n, assoc n m' = if bytes_eqb n (fst e) then Some (snd e) else assoc n m).
Proof.
  intros H Hs [Hdt Hlen] Ht Hsz. destruct Hs. destruct e as [name [d n v]]. cbn [fst snd av_dtype av_nmemb av_data] in *.
  unfold esize, text_line in *. cbn [fst snd av_dtype av_nmemb av_data] in *.
  pose proof Hdt as [Hnorm Hw].
  assert (Hv : v <> []). { intros ->. change (zlen []) with 0 in Hlen. nia. }
  set (tail := lit "#HUMANE [ " ++ t ++ lit " ]" ++ [x0a] ++ r).
  replace ((name ++ lit " " ++ d ++ lit " " ++ print_signed n ++ lit " " ++ hex_print v ++ lit " #HUMANE [ " ++ t ++ lit " ]" ++ [x0a]) ++ r)
    with (name ++ lit " " ++ d ++ lit " " ++ print_signed n ++ lit " " ++ hex_print v ++ lit " " ++ tail).
  2: { unfold tail. rewrite <- !app_assoc. reflexivity. }
  pose proof sv_name0 as [Hnn _].
  assert (Hnz : forall c q, name = c :: q -> Byte.eqb c x00 = false).
  { intros c q ->. destruct sv_name0 as [_ Hf]. inversion Hf as [|? ? (_ & _ & Hc) _]; subst. apply byte_eqb_neq. auto. }
  destruct name as [|c name]; [congruence|]. specialize (Hnz c name eq_refl).
  cbn [read_v2_loop]. change ((c :: name) ++ ?x) with (c :: name ++ x). cbv iota. rewrite Hnz.
  change (c :: name ++ ?x) with ((c :: name) ++ x). 
  set (nm := c :: name) in *.
  rewrite (expect_spec nm) by auto. cbn [bind].
  rewrite (expect_spec d) by auto. cbn [bind].
  rewrite (expect_spec (print_signed n)) by (apply print_signed_tok; lia). cbn [bind].
  rewrite (expect_spec (hex_print v)) by (apply hex_tok; auto). cbn [bind].
  assert (Esk : skip_line tail = Ret r).
  { unfold tail. replace (lit "#HUMANE [ " ++ t ++ lit " ]" ++ [x0a] ++ r) with ((lit "#HUMANE [ " ++ t ++ lit " ]") ++ x0a :: r) by (rewrite <- !app_assoc; reflexivity).
    apply skip_line_spec. apply clean_app; [repeat constructor; discriminate|]. apply clean_app; auto. repeat constructor; discriminate. }
  rewrite Esk. cbn [bind]. rewrite atoi_int_print by lia.
  pose proof (zlen_nonneg v). rewrite <- Hlen.
  destruct ((2 ^ 31 <=? zlen v * 2) || (zlen v * 2 <? - 2 ^ 31)) eqn:E; [lia|]. clear E.
  rewrite hex_len. unfold u64. rewrite Z.mod_small by lia. replace (zlen v * 2 =? 2 * zlen v) with true by lia. cbn [negb].
  rewrite hex_round. destruct (tok_no_blank _ sv_name0) as [Hb Hnul].
  destruct (set_spec ra me s m nm (mem_of 0 v) 0 d n v) as (s' & um' & m' & Es & A & B & C & D & _); auto; try lia.
  { replace (Z.to_nat (n * itemsize me d)) with (length v) by (unfold zlen in *; lia). apply load_mem_of. }
  rewrite Es. cbn [bind]. change (negb (0 =? 0)) with false. cbv iota.
  exists s', m'. split; [reflexivity|]. split; [exact A|]. split; [lia|].
  intros q. rewrite C, Hnorm. reflexivity.
Qed.

Lemma text_lines_cons e es t ts : text_lines (e :: es) (t :: ts) = text_line e t ++ text_lines es ts.
Proof. reflexivity. Qed.

Lemma text_line_pos e t : (0 < length (text_line e t))%nat.
Proof. unfold text_line. rewrite !app_length. cbn [length lit]. simpl. lia. Qed.

(* Reading the lines of es into s. *)
Lemma read_lines_spec ra me : forall es ts s m k, as_ok me s m -> Forall (savable me) es ->
  Forall (line_entry_ok me) es -> Forall clean ts -> length ts = length es -> NoDup (map fst es) ->
  as_bufused s + zsum (map esize es) <= 2 ^ 61 -> (length es < k)%nat ->
  exists s' m', read_v2_loop ra me s (text_lines es ts ++ [x00]) k = Ret (0, s') /\ as_ok me s' m' /\
    as_bufused s' = as_bufused s + zsum (map esize es) /\
    (forall n, assoc n m' = match assoc n es with Some v => Some v | None => assoc n m end).
Proof.
  induction es as [|e es IH]; intros ts s m k H Hs Hl Hc Hlen Hnd Hsz Hk; (destruct k as [|k]; [simpl in Hk; lia|]).
  - destruct ts; [|discriminate]. cbn. exists s, m. split; [reflexivity|]. split; [exact H|]. split; [lia|]. auto.
  - destruct ts as [|t ts]; [discriminate|]. inversion Hs; inversion Hl; inversion Hc; inversion Hnd; subst.
    rewrite text_lines_cons, <- app_assoc. cbn [map zsum fold_right] in Hsz.
    change (fold_right Z.add 0 (map esize es)) with (zsum (map esize es)) in Hsz.
    assert (0 <= zsum (map esize es)).
    { unfold zsum. clear. induction es as [|e es IH]; cbn [map fold_right]; [lia|]. unfold esize at 1. pose proof (zlen_nonneg (av_data (snd e))). pose proof (zlen_nonneg (fst e)). lia. }
    destruct (read_line_spec ra me s m e t (text_lines es ts ++ [x00]) k) as (s1 & m1 & E & A & B & C); auto; [lia|].
    rewrite E. destruct (IH ts s1 m1 k A) as (s2 & m2 & E2 & A2 & B2 & C2); auto; [lia|simpl in Hk; lia|].
    exists s2, m2. split; [exact E2|]. split; [exact A2|]. split.
    + rewrite B2, B. cbn [map zsum fold_right]. unfold zsum. lia.
    + intros n. rewrite C2, C. destruct e as [ne ve]. cbn [assoc fst snd].
      destruct (bytes_eqb n ne) eqn:En; auto. apply bytes_eqb_eq in En. subst n. cbn [fst] in *.
      match goal with Hx : ~ In ne (map fst es) |- _ => apply assoc_none in Hx; rewrite Hx end. reflexivity.
Qed.

Lemma read_v2_spec ra me s m es ts : as_ok me s m -> Forall (savable me) es ->
  Forall (line_entry_ok me) es -> Forall clean ts -> length ts = length es -> NoDup (map fst es) ->
  as_bufused s + zsum (map esize es) <= 2 ^ 61 ->
  exists s' m', attrset_read_v2 ra me s (Some (text_lines es ts)) = Ret (0, s') /\ as_ok me s' m' /\
    as_dirty s' = false /\ as_bufused s' = as_bufused s + zsum (map esize es) /\
    (forall n, assoc n m' = match assoc n es with Some v => Some v | None => assoc n m end).
Proof.
  intros H Hs Hl Hc Hlen Hnd Hsz. unfold attrset_read_v2.
  destruct (read_lines_spec ra me es ts (set_dirty s false) m (S (length (text_lines es ts)))) as (s' & m' & E & A & B & C); auto.
  - apply as_ok_dirty. auto.
  - clear - Hlen. apply Nat.lt_succ_r. revert ts Hlen. induction es as [|e es IH]; intros [|t ts] Hlen; simpl in *; try lia.
    rewrite text_lines_cons, app_length. pose proof (text_line_pos e t). specialize (IH ts ltac:(lia)). lia.
  - rewrite E. cbn [bind]. exists (set_dirty s' false), m'. split; [reflexivity|]. split; [apply as_ok_dirty; auto|].
    repeat split; auto.
Qed.

Lemma rep_line me s a e : rep1 me s a e -> line_entry_ok me e.
Proof. intros []. split; auto. Qed.

Lemma rep_sizes me s : forall l m, Forall2 (rep1 me s) l m -> Forall (line_entry_ok me) m.
Proof. induction 1; constructor; auto. eapply rep_line; eauto. Qed.
