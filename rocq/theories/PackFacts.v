(* Packing and unpacking handles. *)
From Coq.Strings Require Import Byte String.
From Coq Require Import List ZArith Lia Bool ZifyBool ZifyNat.
From Verif Require Import Base BaseFacts Dtype Cast Array FS Fmt Attr Block Pack Spec AttrSpec OpenSpec PackSpec FSFacts ConvFacts DtypeFacts AttrFacts OpenFacts AttrFileFacts.
Import ListNotations.
Open Scope Z_scope.
Local Open Scope out_scope.

Lemma rd_app n a b : length a = n -> rd n (a ++ b) = Ret (a, b).
Proof. intros H. unfold rd. rewrite take_app by auto. reflexivity. Qed.
Lemma val_enc me n z : nat_val me (nat_enc me n z) = z mod 256 ^ Z.of_nat n.
Proof. destruct me; unfold nat_val, nat_enc; rewrite ?rev_involutive; apply le_val_enc. Qed.
Lemma val_enc8 me z : 0 <= z < 2 ^ 64 -> nat_val me (nat_enc me 8 z) = z.
Proof. intros H. rewrite val_enc. apply Z.mod_small. exact H. Qed.
Lemma val_enc4 me z : 0 <= z < 2 ^ 32 -> nat_val me (nat_enc me 4 z) = z.
Proof. intros H. rewrite val_enc. apply Z.mod_small. exact H. Qed.
Lemma int_enc me z : - 2 ^ 31 <= z < 2 ^ 31 -> native_int me (nat_enc me 4 z) = z.
Proof.
  intros H. unfold native_int. rewrite val_enc. unfold s32. change (256 ^ Z.of_nat 4) with (2 ^ 32).
  rewrite Zplus_mod_idemp_l. rewrite Z.mod_small; lia.
Qed.
Lemma junk_len j t n : length (junk_bytes j t n) = n.
Proof. unfold junk_bytes. rewrite map_length, seq_length. reflexivity. Qed.
Lemma char8_len j t d : length (char8 j t d) = 8%nat.
Proof. unfold char8. rewrite firstn_length, app_length. cbn [length]. rewrite junk_len. lia. Qed.
Lemma until_app d r : nul_free d -> until_nul (d ++ x00 :: r) = d.
Proof.
  induction d as [|c d IH]; intros H; [reflexivity|]. cbn. destruct (Byte.eqb c x00) eqn:E.
  - apply byte_eqb_eq in E. subst. exfalso. apply H. left. auto.
  - f_equal. apply IH. intros X. apply H. right. auto.
Qed.
Lemma char8_str j t d : nul_free d -> (length d < 8)%nat -> until_nul (char8 j t d) = d.
Proof.
  intros Hn Hl. unfold char8. replace 8%nat with (length d + S (7 - length d))%nat at 1 by lia.
  rewrite firstn_app_2. cbn [firstn]. apply until_app. auto.
Qed.
Lemma bool_val me b : negb (nat_val me (enc_bool me b) =? 0) = b.
Proof. unfold enc_bool. rewrite val_enc4; [|destruct b; lia]. destruct b; reflexivity. Qed.
Lemma bool_len me b : length (enc_bool me b) = 4%nat.
Proof. apply nat_enc_length. Qed.
Lemma cstr_app s r : nul_free s -> rd_cstr (s ++ x00 :: r) = Ret (s, r).
Proof.
  induction s as [|c s IH]; intros H; [reflexivity|]. cbn. destruct (Byte.eqb c x00) eqn:E.
  - apply byte_eqb_eq in E. subst. exfalso. apply H. left. auto.
  - rewrite IH; [reflexivity|]. intros X. apply H. right. auto.
Qed.
Lemma array_app me w l r : (forall z, In z l -> nat_val me (nat_enc me w z) = z) ->
  rd_array me w (length l) (concat (map (nat_enc me w) l) ++ r) = Ret (l, r).
Proof.
  induction l as [|z l IH]; intros H; [reflexivity|]. cbn [length map concat rd_array]. rewrite <- app_assoc, rd_app by apply nat_enc_length.
  cbn [bind]. rewrite IH by (intros; apply H; right; auto). cbn [bind]. rewrite H by (left; auto). reflexivity.
Qed.
Lemma array_any me w : forall n l r, length l = (n * w)%nat -> exists xs, rd_array me w n (l ++ r) = Ret (xs, r) /\ length xs = n.
Proof.
  induction n as [|n IH]; intros l r H.
  - exists []. destruct l; [split; reflexivity|discriminate].
  - cbn [rd_array]. rewrite <- (firstn_skipn w l), <- app_assoc, rd_app by (rewrite firstn_length; lia). cbn [bind].
    destruct (IH (skipn w l) r) as (xs & E & L); [rewrite skipn_length; lia|]. rewrite E. cbn [bind]. eexists. split; [reflexivity|]. cbn. lia.
Qed.

Lemma pack_array_spec j t me w n l : 0 <= n -> array_fits n (256 ^ Z.of_nat w) l -> exists img, pack_array j t me w n l = Ret img /\
  forall r, exists xs, rd_array me w (Z.to_nat (n + 1)) (img ++ r) = Ret (xs, r) /\ (l <> [] -> xs = l).
Proof.
  intros Hn [[->|Hl] HF]; unfold pack_array; replace (n + 1 <? 0) with false by lia.
  - eexists. split; [reflexivity|]. intros r. destruct (array_any me w (Z.to_nat (n + 1)) (junk_bytes j t (Z.to_nat (n + 1) * w)) r) as (xs & E & _).
    { apply junk_len. } exists xs. split; [exact E|]. intros X. contradiction.
  - destruct l as [|z l]; [cbn in Hl; lia|]. rewrite Hl. replace (n + 1 <? n + 1) with false by lia. eexists. split; [reflexivity|].
    intros r. exists (z :: l). split; [|auto]. replace (Z.to_nat (n + 1)) with (length (z :: l)) by (unfold zlen in Hl; lia).
    rewrite firstn_all. apply array_app. intros x Hx. rewrite val_enc. apply Z.mod_small. rewrite Forall_forall in HF. auto.
Qed.

Definition moved (base nbase : Z) (a : attr) : attr :=
  mkAttr (at_nmemb a) (at_dtype a) (nbase + (at_name a - base)) (nbase + (at_data a - base)).
Lemma attrs_app j me base nbase l r : Forall (fun a => - 2 ^ 31 <= at_nmemb a < 2 ^ 31 /\ nul_free (at_dtype a) /\ (length (at_dtype a) < 8)%nat /\
    0 <= at_name a - base < 2 ^ 64 /\ 0 <= at_data a - base < 2 ^ 64) l ->
  rd_attrs me nbase (length l) (concat (map (pack_attr j me base) l) ++ r) = Ret (map (moved base nbase) l, r).
Proof.
  induction l as [|a l IH]; intros H; [reflexivity|]. inversion_clear H. destruct H0 as (H1a & H1b & H1c & H1d & H1e).
  cbn [length map concat rd_attrs]. unfold pack_attr at 1. rewrite <- !app_assoc.
  rewrite rd_app by apply nat_enc_length. cbn [bind]. rewrite rd_app by apply char8_len. cbn [bind]. rewrite rd_app by apply junk_len. cbn [bind].
  rewrite rd_app by apply nat_enc_length. cbn [bind]. rewrite rd_app by apply nat_enc_length. cbn [bind]. rewrite IH by auto. cbn [bind].
  rewrite int_enc, char8_str, !val_enc8 by auto. reflexivity.
Qed.

Lemma unpack_attrset_spec j me s m nbase r : as_ok me s m -> Forall (fun a => nul_free (at_dtype a)) (as_list s) ->
  Forall (fun a => at_nmemb a < 2 ^ 31) (as_list s) ->
  exists img s', pack_attrset j me s = Ret img /\ unpack_attrset me nbase (img ++ r) = Ret s' /\ as_ok me s' m /\
    as_dirty s' = as_dirty s /\ as_bufused s' = as_bufused s /\ as_base s' = nbase.
Proof.
  intros OK Hnul Hnm. pose proof (ok_used _ _ _ OK) as Hu. pose proof (ok_min _ _ _ OK) as Hm. pose proof (ok_lmin _ _ _ OK) as Hlm.
  change (2 ^ 62) with 4611686018427387904 in *.
  destruct (load_some (as_mem s) (as_base s) (Z.to_nat (as_bufused s))) as (buf & Eb).
  { intros k Hk X. apply (ok_dom _ _ _ OK) in X. lia. }
  pose proof (load_length _ _ _ _ Eb) as Lb.
  assert (HS : exists m', store (malloc_mem nbase (as_bufsize s)) nbase buf = Some m').
  { apply store_some. intros k Hk. unfold malloc_mem. rewrite Lb in Hk.
    replace ((nbase <=? nbase + Z.of_nat k) && (nbase + Z.of_nat k <? nbase + as_bufsize s)) with true by lia. discriminate. }
  destruct HS as (m' & ES).
  assert (HF : Forall (fun a => - 2 ^ 31 <= at_nmemb a < 2 ^ 31 /\ nul_free (at_dtype a) /\ (length (at_dtype a) < 8)%nat /\
    0 <= at_name a - as_base s < 2 ^ 64 /\ 0 <= at_data a - as_base s < 2 ^ 64) (as_list s)).
  { rewrite Forall_forall in *. intros a Ha. destruct (In_nth_error _ _ Ha) as (i & Hi).
    destruct (F2_nth _ _ _ _ _ (ok_rep _ _ _ OK) Hi) as (e & _ & R). destruct R.
    specialize (Hnul a Ha). specialize (Hnm a Ha). split; [rewrite r_nmemb in *; lia|]. split; [auto|].
    split; [rewrite r_dtype; destruct r_dt as [Hd _]; rewrite <- Hd, normalize_spec; cbn [length]; rewrite firstn_length; lia|].
    pose proof (zlen_nonneg (fst e)). pose proof (zlen_nonneg (av_data (snd e))). change (2 ^ 64) with 18446744073709551616. lia. }
  unfold pack_attrset. rewrite Eb. cbn [or_ub bind]. eexists. eexists. split; [reflexivity|].
  split.
  { unfold unpack_attrset. rewrite <- !app_assoc. rewrite rd_app by apply bool_len. cbn [bind].
    rewrite (app_assoc (junk_bytes j 2 4)). rewrite rd_app by (rewrite app_length, !junk_len; reflexivity). cbn [bind].
    rewrite rd_app by apply nat_enc_length. cbn [bind]. rewrite rd_app by apply nat_enc_length. cbn [bind].
    rewrite rd_app by apply junk_len. cbn [bind]. rewrite rd_app by apply nat_enc_length. cbn [bind]. rewrite rd_app by apply nat_enc_length. cbn [bind].
    pose proof (ok_cnt _ _ _ OK). pose proof (zlen_nonneg (as_list s)). rewrite !val_enc8 by (change (2 ^ 64) with 18446744073709551616; lia).
    rewrite rd_app by auto. cbn [bind]. rewrite ES. cbn [or_ub bind].
    pose proof (ok_ls _ _ _ OK). replace (as_listsize s <? zlen (as_list s)) with false by lia.
    replace (Z.to_nat (zlen (as_list s))) with (length (as_list s)) by (unfold zlen; lia). rewrite attrs_app by exact HF. cbn [bind]. rewrite bool_val. reflexivity. }
  split; [|split; [reflexivity|split; reflexivity]].
  assert (Hcp : forall a n v, as_base s <= a -> a + Z.of_nat n <= as_base s + as_bufused s -> load (as_mem s) a n = Some v ->
    load m' (nbase + (a - as_base s)) n = Some v).
  { intros a n v H1 H2 Hv. apply load_intro; [eapply load_length; eauto|]. intros k Hk.
    rewrite (store_spec _ _ _ _ ES). unfold zlen. rewrite Lb.
    replace ((nbase <=? nbase + (a - as_base s) + Z.of_nat k) && (nbase + (a - as_base s) + Z.of_nat k <? nbase + Z.of_nat (Z.to_nat (as_bufused s)))) with true by lia.
    rewrite <- (load_nth _ _ _ _ Hv k Hk). rewrite <- (load_nth _ _ _ _ Eb) by lia. f_equal. lia. }
  constructor; cbn [as_list as_mem as_base as_bufused as_bufsize as_listsize]; try lia; try (unfold zlen; rewrite map_length; fold (zlen (as_list s)); apply OK).
  - pose proof (ok_rep _ _ _ OK) as HR. revert HR. generalize (as_list s). clear - Hcp Hu. intros l HR.
    set (s' := mkAS _ _ _ _ _ _ _). assert (Hm' : as_mem s' = m') by reflexivity. assert (Hb' : as_base s' = nbase) by reflexivity.
    assert (Hu' : as_bufused s' = as_bufused s) by reflexivity. clearbody s'.
    induction HR as [|a e l m0 R HR IH]; cbn [map]; constructor; auto. clear IH HR. destruct R. pose proof (zlen_nonneg (av_data (snd e))). pose proof (zlen_nonneg (fst e)).
    constructor; cbn [moved at_dtype at_nmemb at_name at_data]; auto; rewrite ?Hm', ?Hb', ?Hu'; try lia; apply Hcp; auto; unfold zlen in *; lia.
  - apply OK.
  - intros x. rewrite <- (store_domain _ _ _ _ ES x). unfold malloc_mem. destruct ((nbase <=? x) && (x <? nbase + as_bufsize s)) eqn:E; split; intros X; try discriminate; auto; lia.
Qed.

Lemma run_used ra me : forall os s m M, as_ok me s m -> (forall k, assoc k m = M k) -> Forall (aop_ok me) os ->
  as_bufused s + zsum (map (aop_size me) os) <= 2 ^ 61 ->
  exists s' m', arun ra me s os = Ret (fst (aspecs me M os), s') /\ as_ok me s' m' /\
    (forall k, assoc k m' = snd (aspecs me M os) k) /\ as_bufused s' <= as_bufused s + zsum (map (aop_size me) os).
Proof.
  induction os as [|o os IH]; intros s m M H HM Hok Hsz; cbn [arun aspecs].
  - exists s, m. unfold zsum in *. cbn [map fold_right] in *. split; [reflexivity|]. split; [exact H|]. split; [exact HM|lia].
  - inversion Hok as [|? ? Ho Hos]; subst. cbn [map zsum fold_right] in *.
    change (fold_right Z.add 0 (map (aop_size me) os)) with (zsum (map (aop_size me) os)) in *.
    assert (0 <= zsum (map (aop_size me) os)).
    { clear - Hos. unfold zsum. induction Hos as [|o l Ho Hl IHl]; cbn [map fold_right]; [lia|]. pose proof (aop_size_nonneg _ _ Ho). lia. }
    destruct (step_spec ra me s m M o H HM Ho) as (rc & s1 & m1 & E & H1 & Hrc & HM1 & Hs1); [lia|].
    rewrite E. cbn [bind]. destruct (aspec me M o) as [rc' M1] eqn:Ea. cbn [fst snd] in *. subst rc'.
    destruct (IH s1 m1 M1 H1 HM1 Hos) as (s2 & m2 & E2 & H2 & HM2 & HU2); [lia|]. rewrite E2. cbn [bind].
    destruct (aspecs me M1 os) as [rcs M2]. cbn [fst snd] in *. exists s2, m2. split; [reflexivity|]. split; [exact H2|]. split; [exact HM2|lia].
Qed.

Lemma normalize_nul me d : nul_free d -> nul_free (dtype_normalize me d).
Proof.
  intros H. rewrite normalize_spec. intros [X|X].
  - unfold order_char in X. destruct d as [|c r]; [destruct me; discriminate|].
    destruct (Byte.eqb c "<" || Byte.eqb c ">"); [apply H; left; auto|destruct me; discriminate].
  - assert (X' : In x00 (dtype_body d)) by (rewrite <- (firstn_skipn 6 (dtype_body d)); apply in_or_app; left; exact X). clear X; rename X' into X. apply H. unfold dtype_body in X. destruct d as [|c r]; [auto|]. destruct (Byte.eqb c "<" || Byte.eqb c ">" || Byte.eqb c "|" || Byte.eqb c "="); [right|]; auto.
Qed.
Lemma aspecs_nul me : forall os M, Forall type_string os -> (forall k v, M k = Some v -> nul_free (av_dtype v)) ->
  forall k v, snd (aspecs me M os) k = Some v -> nul_free (av_dtype v).
Proof.
  induction os as [|o os IH]; intros M HF HM k v; cbn [aspecs]; [apply HM|]. inversion_clear HF.
  destruct (aspec me M o) as [rc M1] eqn:E. specialize (IH M1 H0). destruct (aspecs me M1 os) as [rcs M2]. cbn [snd] in *. apply IH. clear IH k v.
  intros k v. destruct o as [name um data dt n|name]; cbn in E.
  - destruct (has_blank name); injection E as <- <-; [apply HM|]. unfold with_attr. destruct (bytes_eqb k name); [|apply HM].
    intros X. injection X as <-. cbn. apply normalize_nul. exact H.
  - destruct (M name); injection E as <- <-; [|apply HM]. unfold with_attr. destruct (bytes_eqb k name); [discriminate|apply HM].
Qed.
Lemma sorted_assoc m : esorted m -> forall e, In e m -> assoc (fst e) m = Some (snd e).
Proof.
  intros HS. induction HS as [|e0 m HS IH HF]; intros e He; [destruct He|]. destruct e0 as [k0 v0]. cbn [assoc].
  destruct He as [<-|He]; [rewrite bytes_eqb_refl; reflexivity|].
  destruct (bytes_eqb (fst e) k0) eqn:E; [|auto]. apply bytes_eqb_eq in E. rewrite Forall_forall in HF. specialize (HF e He). cbn in HF.
  exfalso. unfold elt in HF. rewrite E in HF. cbn in HF. rewrite strcmp_refl in HF. discriminate.
Qed.

Lemma pack_spec junk me nbase b m : handle_fits b -> as_ok me (b_attrset b) m ->
  Forall (fun a => nul_free (at_dtype a)) (as_list (b_attrset b)) -> Forall (fun a => at_nmemb a < 2 ^ 31) (as_list (b_attrset b)) ->
  exists img b', block_pack junk me b = Ret img /\ block_unpack me nbase img = Ret b' /\ same_handle b b' /\
    as_ok me (b_attrset b') m /\ as_bufused (b_attrset b') = as_bufused (b_attrset b).
Proof.
  intros HF OK Hn Hm. destruct HF.
  destruct (unpack_attrset_spec junk me (b_attrset b) m nbase [] OK Hn Hm) as (ai & s' & E1 & E2 & OK' & D & U & B). rewrite app_nil_r in E2.
  destruct (pack_array_spec junk 10 me 8 (b_Nfile b) (b_fsize b) ltac:(lia) hf_fsize) as (i1 & F1 & G1).
  destruct (pack_array_spec junk 11 me 8 (b_Nfile b) (b_foffset b) ltac:(lia) hf_foffset) as (i2 & F2 & G2).
  destruct (pack_array_spec junk 12 me 4 (b_Nfile b) (b_fchecksum b) ltac:(lia) hf_fchecksum) as (i3 & F3 & G3).
  destruct (G1 (i2 ++ i3 ++ ai)) as (x1 & R1 & S1). destruct (G2 (i3 ++ ai)) as (x2 & R2 & S2). destruct (G3 ai) as (x3 & R3 & S3).
  unfold block_pack. rewrite E1. cbn [bind]. rewrite F1. cbn [bind]. rewrite F2. cbn [bind]. rewrite F3. cbn [bind].
  eexists. eexists. split; [reflexivity|]. split.
  { unfold block_unpack. rewrite <- ?app_assoc.
    rewrite rd_app by apply char8_len. cbn [bind]. rewrite rd_app by apply nat_enc_length. cbn [bind].
    rewrite (app_assoc (junk_bytes junk 6 4)). rewrite rd_app by (rewrite app_length, !junk_len; reflexivity). cbn [bind].
    rewrite rd_app by apply nat_enc_length. cbn [bind]. rewrite rd_app by apply junk_len. cbn [bind]. rewrite rd_app by apply nat_enc_length. cbn [bind].
    rewrite (app_assoc (junk_bytes junk 9 4)). rewrite rd_app by (rewrite app_length, !junk_len; reflexivity). cbn [bind].
    rewrite rd_app by apply bool_len. cbn [bind]. rewrite rd_app by apply junk_len. cbn [bind]. rewrite int_enc by lia.
    cbn [app]. rewrite cstr_app by apply hf_base. cbn [bind]. replace (b_Nfile b + 1 <? 0) with false by lia.
    rewrite R1. cbn [bind]. rewrite R2. cbn [bind]. rewrite R3. cbn [bind]. rewrite E2. cbn [bind]. rewrite bool_val. reflexivity. }
  split; [|split; [exact OK'|exact U]].
  constructor; cbn [b_dtype b_nmemb b_base b_size b_Nfile b_fsize b_foffset b_fchecksum b_dirty b_attrset]; auto.
  - destruct hf_dtype. apply char8_str; auto.
  - apply int_enc. auto.
  - apply strdup_id. apply hf_base.
  - apply val_enc8. auto.
Qed.

Lemma handle_round_trip : forall junk me nbase ra a os os2 s d b rcs,
  Forall (aop_ok me) os -> Forall type_string os -> Forall (aop_ok me) os2 ->
  zsum (map (aop_size me) os) + zsum (map (aop_size me) os2) <= 2 ^ 61 ->
  arun ra me (attrset_create a) os = Ret (rcs, s) ->
  b_attrset b = set_dirty s d -> handle_fits b ->
  exists img b', block_pack junk me b = Ret img /\ block_unpack me nbase img = Ret b' /\ same_handle b b' /\
    (forall name, attr_shows (b_attrset b') name (snd (aspecs me no_attrs os) name)) /\
    attr_names (b_attrset b') = attr_names (b_attrset b) /\
    exists s2, arun ra me (b_attrset b') os2 = Ret (fst (aspecs me (snd (aspecs me no_attrs os)) os2), s2) /\
      forall name, attr_shows s2 name (snd (aspecs me (snd (aspecs me no_attrs os)) os2) name).
Proof.
  intros junk me nbase ra a os os2 s d b rcs Hok Hts Hok2 Hsz Hrun Hb HF.
  assert (Hpos : 0 <= zsum (map (aop_size me) os2)).
  { clear - Hok2. unfold zsum. induction Hok2 as [|o l Ho Hl IHl]; cbn [map fold_right]; [lia|]. pose proof (aop_size_nonneg _ _ Ho). lia. }
  change (2 ^ 61) with 2305843009213693952 in *.
  destruct (run_used ra me os (attrset_create a) [] no_attrs (create_ok me a)) as (s' & m & E & OK & HM & HU); auto.
  { change (2 ^ 61) with 2305843009213693952. unfold attrset_create at 1. cbn [as_bufused]. lia. }
  rewrite E in Hrun. injection Hrun as _ <-.
  assert (OKb : as_ok me (b_attrset b) m).
  { rewrite Hb. destruct OK. constructor; auto. cbn [set_dirty as_list]. clear - ok_rep. induction ok_rep as [|x y l l' R _ IH]; constructor; auto. destruct R. constructor; auto. }
  assert (Hent : forall x, In x (as_list (b_attrset b)) -> exists e, In e m /\ rep1 me (b_attrset b) x e).
  { intros x Hx. destruct (In_nth_error _ _ Hx) as (i & Hi). destruct (F2_nth _ _ _ _ _ (ok_rep _ _ _ OKb) Hi) as (e & He & R). exists e. split; auto. eapply nth_error_In; eauto. }
  destruct (pack_spec junk me nbase b m HF OKb) as (img & b' & P & U & SH & OK' & UU).
  { rewrite Forall_forall. intros x Hx. destruct (Hent x Hx) as (e & He & R). rewrite (r_dtype _ _ _ _ R).
    apply (aspecs_nul me os no_attrs Hts) with (k := fst e); [discriminate|]. rewrite <- HM. apply sorted_assoc; auto. apply OK. }
  { rewrite Forall_forall. intros x Hx. destruct (Hent x Hx) as (e & He & R). destruct R. destruct r_dt as [_ Hw].
    rewrite r_nmemb. rewrite r_len in r_max. clear - r_n0 r_max Hw. change (2 ^ 31) with 2147483648 in *. nia. }
  exists img, b'. split; [exact P|]. split; [exact U|]. split; [exact SH|].
  split; [intros name; rewrite <- HM; eapply ok_shows; eauto|].
  split; [rewrite (ok_names _ _ _ OK'), (ok_names _ _ _ OKb); reflexivity|].
  destruct (run_spec ra me os2 (b_attrset b') m _ OK' HM Hok2) as (s2 & m2 & E2 & OK2 & HM2).
  { rewrite UU, Hb. cbn [set_dirty as_bufused]. unfold attrset_create at 1 in HU. cbn [as_bufused] in HU. change (2 ^ 61) with 2305843009213693952. lia. }
  exists s2. split; [exact E2|]. intros name. rewrite <- HM2. eapply ok_shows; eauto.
Qed.
