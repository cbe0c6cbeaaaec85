(* Proofs about reopening blocks. *)
From Coq.Strings Require Import Byte String.
From Coq Require Import List ZArith Lia Bool ZifyBool ZifyNat.
From Verif Require Import Base BaseFacts Dtype Cast Array FS Fmt Attr Block Spec AttrSpec OpenSpec
  SeekFacts FSFacts HeaderFacts DtypeFacts AttrFacts TextFacts OpenFacts.
Import ListNotations.
Open Scope Z_scope.
Local Open Scope out_scope.
Ltac Zify.zify_post_hook ::= Z.div_mod_to_equations.

(* ------------------------------------------------------- when parsing fails *)
Lemma scan_many N l : forall fsz fck, zlen l = N -> 2 ^ 24 < N < 2 ^ 31 -> Forall num_ok l ->
  length fsz = S (Z.to_nat N) -> length fck = S (Z.to_nat N) ->
  scan_files N fsz fck (x0a :: lines_text 0 l) (Z.to_nat N) = Ret None.
Proof.
  intros fsz fck Hl HN Hok L1 L2.
  set (k := Z.to_nat (2 ^ 24)).
  assert (Hk : (k < length l)%nat) by (unfold zlen in Hl; lia).
  destruct (skipn k l) as [|[sz ck] r] eqn:Er.
  { apply (f_equal (@length _)) in Er. rewrite skipn_length in Er. simpl in Er. lia. }
  assert (Hf : length (firstn k l) = k) by (rewrite firstn_length; lia).
  assert (Hz : zlen (firstn k l) = 2 ^ 24) by (unfold zlen; rewrite Hf; lia).
  rewrite <- (firstn_skipn k l), Er.
  replace (Z.to_nat N) with (length (firstn k l) + (length l - k))%nat by (unfold zlen in *; lia).
  rewrite (scan_lines N (firstn k l) ((sz, ck) :: r)); try lia.
  - destruct (length l - k)%nat as [|m] eqn:Em; [lia|]. cbn [lines_text].
    rewrite scan_files_S, scan_06X_nl. unfold line_text. rewrite Hz.
    destruct (scan_06X_long (0 + 2 ^ 24) (lit ": " ++ print_signed (s64 sz) ++ lit " : " ++ print_unsigned ck ++ lit " : " ++ print_unsigned (reduce_sum ck) ++ [x0a] ++ lines_text (0 + 2 ^ 24 + 1) r)) as (v & c & r' & E & Hx).
    { change (16 ^ 6) with (2 ^ 24). assert (2 ^ 24 < 16 ^ 64) by reflexivity. lia. }
    rewrite E. change (lit ": ") with [":"%byte; " "%byte]. cbn [scan_lit].
    change (Byte.eqb ":" " ") with false. cbv iota.
    destruct (Byte.eqb ":" c) eqn:Ec; [|reflexivity].
    apply byte_eqb_eq in Ec. subst c. exfalso. apply Hx. reflexivity.
  - apply Forall_forall. intros x Hx. rewrite Forall_forall in Hok. apply Hok. rewrite <- (firstn_skipn k l). apply in_or_app. auto.
Qed.

Definition readable_type (d : bytes) : Prop :=
  d <> [] /\ (length d <= 7)%nat /\ Forall (fun c => is_space c = false /\ c <> x00) d.

Lemma token_ok d q : readable_type d -> scan_s (drop_space (d ++ (x0a :: q))) = Some (d, x0a :: q).
Proof.
  intros (Hn & _ & Hp). rewrite drop_space_dt by auto. unfold scan_s. rewrite drop_space_dt, token_app by auto.
  destruct d; [congruence|reflexivity].
Qed.

Lemma parse_table_exact b sizes : has_layout b sizes -> readable_type (b_dtype b) -> - 2 ^ 31 <= b_nmemb b < 2 ^ 31 ->
  parse_header (table_text b sizes) =
  Ret (if acceptable (b_dtype b) (b_nmemb b) (zlen sizes) then Some (read_back b sizes) else None).
Proof.
  intros H Hd Hn. destruct (acceptable _ _ _) eqn:E; unfold acceptable in E.
  - apply parse_table; auto; try lia. split; [|split]; try apply Hd. destruct (dtype_isvalid (b_dtype b)); auto.
  - pose proof (zlen_nonneg sizes) as Hz. pose proof (hl_count _ _ H) as HN.
    unfold table_text, header_text, parse_header. rewrite scan_DT.
    cbv iota. change ((x0a :: lit "NMEMB: ") ++ ?q) with (x0a :: (lit "NMEMB: " ++ q)).
    rewrite token_ok by auto. destruct (8 <=? length (b_dtype b))%nat eqn:E8; [destruct Hd as (_ & ? & _); lia|].
    change (x0a :: (lit "NMEMB: " ++ ?q)) with ((x0a :: lit "NMEMB: ") ++ q).
    rewrite scan_NM. cbv iota. rewrite scan_d_drop, scan_d_signed by (try lia; simpl; auto).
    rewrite scan_NF. cbv iota. rewrite scan_d_drop, scan_d_signed by (try lia; simpl; auto).
    destruct ((zlen sizes <? 0) || (2 ^ 31 - 2 <=? zlen sizes)) eqn:EN; [reflexivity|].
    destruct (b_nmemb b <? 0) eqn:En; [reflexivity|].
    rewrite until_nul_id by apply Hd. destruct (dtype_isvalid (b_dtype b)) eqn:Ev; [|reflexivity]. cbn [negb]. cbv iota zeta.
    assert (Hl : zlen (combine sizes (b_fchecksum b)) = zlen sizes) by (unfold zlen; rewrite (combine_len b sizes H); auto).
    rewrite scan_many; auto; try lia; [apply combine_num_ok; auto| |]; rewrite repeat_length; auto.
Qed.

(* ------------------------------------------------------- arbitrary headers *)
Record hdr_shape (h : hdr) : Prop := {
  hs_valid : dtype_isvalid (h_dtype h) = true;
  hs_nmemb : 0 <= h_nmemb h < 2 ^ 31;
  hs_Nfile : 0 <= h_Nfile h < 2 ^ 31 - 2;
  hs_fsize : length (h_fsize h) = S (Z.to_nat (h_Nfile h));
  hs_fck : length (h_fchecksum h) = S (Z.to_nat (h_Nfile h));
  hs_sizes : Forall (fun s => 0 <= s < 2 ^ 64) (h_fsize h);
  hs_cks : Forall (fun c => 0 <= c < 2 ^ 32) (h_fchecksum h);
  hs_last : nth (Z.to_nat (h_Nfile h)) (h_fsize h) 0 = 0
}.

Lemma scan_td_range s v r : scan_td s = Some (v, r) -> 0 <= v < 2 ^ 64.
Proof. unfold scan_td. destruct (scan_dec s) as [[x y]|]; intros H; [|discriminate]. injection H as <- _. apply u64_range. Qed.
Lemma scan_u_range s v r : scan_u s = Some (v, r) -> 0 <= v < 2 ^ 32.
Proof. unfold scan_u. destruct (scan_dec s) as [[x y]|]; intros H; [|discriminate]. injection H as <- _. unfold u32. lia. Qed.
Lemma scan_d_range s v r : scan_d s = Some (v, r) -> - 2 ^ 31 <= v < 2 ^ 31.
Proof. unfold scan_d. destruct (scan_dec s) as [[x y]|]; intros H; [|discriminate]. injection H as <- _. apply s32_range. Qed.

Lemma upd_Forall {A} (P : A -> Prop) : forall l i x, Forall P l -> P x -> Forall P (upd l i x).
Proof. induction l as [|y l IH]; intros [|i] x Hl Hx; simpl; auto; inversion Hl; subst; constructor; auto. Qed.
Lemma nth_upd_ne {A} (d : A) : forall l i j x, i <> j -> nth j (upd l i x) d = nth j l d.
Proof. induction l as [|y l IH]; intros [|i] [|j] x H; simpl; auto; try lia. Qed.

Lemma scan_files_total N : forall n fsz fck s, 0 <= N -> length fsz = S (Z.to_nat N) -> length fck = S (Z.to_nat N) ->
  Forall (fun s => 0 <= s < 2 ^ 64) fsz -> Forall (fun c => 0 <= c < 2 ^ 32) fck -> nth (Z.to_nat N) fsz 0 = 0 ->
  scan_files N fsz fck s n = Ret None \/
  exists fsz' fck', scan_files N fsz fck s n = Ret (Some (fsz', fck')) /\
    length fsz' = S (Z.to_nat N) /\ length fck' = S (Z.to_nat N) /\
    Forall (fun s => 0 <= s < 2 ^ 64) fsz' /\ Forall (fun c => 0 <= c < 2 ^ 32) fck' /\ nth (Z.to_nat N) fsz' 0 = 0.
Proof.
  induction n as [|n IH]; intros fsz fck s HN L1 L2 F1 F2 H0.
  - right. exists fsz, fck. auto 10.
  - rewrite scan_files_S.
    destruct (scan_06X s) as [[fid s1]|]; auto. destruct (scan_lit (lit ": ") s1) as [s2|]; auto.
    destruct (scan_td s2) as [[sz s3]|] eqn:E1; auto. destruct (scan_lit (lit " : ") s3) as [s4|]; auto.
    destruct (scan_u s4) as [[ck s5]|] eqn:E2; auto. destruct (scan_lit (lit " : ") s5) as [s6|]; auto.
    destruct (scan_u s6) as [[ck' s7]|]; auto. apply scan_td_range in E1. apply scan_u_range in E2.
    destruct ((fid <? 0) || (N <=? fid)) eqn:Ef; auto.
    rewrite !zupd_some by (unfold zlen; lia). cbn [or_ub bind]. apply IH; rewrite ?upd_length; auto.
    + apply upd_Forall; auto.
    + apply upd_Forall; auto.
    + rewrite nth_upd_ne by lia. auto.
Qed.

Lemma parse_total c : short_type c ->
  parse_header c = Ret None \/ exists h, parse_header c = Ret (Some h) /\ hdr_shape h.
Proof.
  intros Hs. unfold parse_header.
  destruct (scan_lit (lit " DTYPE: ") c) as [s1|] eqn:E1; auto.
  destruct (scan_s s1) as [[tok s2]|] eqn:E2; auto. specialize (Hs _ _ _ E1 E2).
  destruct (8 <=? length tok)%nat eqn:E8; [lia|].
  destruct (scan_lit (lit " NMEMB: ") s2) as [s3|]; auto.
  destruct (scan_d s3) as [[nm s4]|] eqn:E3; auto. apply scan_d_range in E3.
  destruct (scan_lit (lit " NFILE: ") s4) as [s5|]; auto.
  destruct (scan_d s5) as [[nf s6]|] eqn:E4; auto.
  destruct ((nf <? 0) || (2 ^ 31 - 2 <=? nf)) eqn:E5; auto. destruct (nm <? 0) eqn:E6; auto.
  destruct (dtype_isvalid (until_nul tok)) eqn:E7; auto. cbn [negb]. cbv iota zeta.
  set (z := repeat 0 _).
  destruct (scan_files_total nf (Z.to_nat nf) z z s6) as [->|(fsz & fck & -> & L1 & L2 & F1 & F2 & N0)]; auto; try lia;
    try (apply repeat_length); try (apply Forall_forall; intros x Hx; apply repeat_spec in Hx; lia).
  - apply nth_repeat.
  - right. eexists. split; [reflexivity|]. constructor; simpl; auto; lia.
Qed.

Lemma parse_shape c h : parse_header c = Ret (Some h) -> hdr_shape h.
Proof.
  intros H. destruct (parse_total c) as [E|(h' & E & S)]; try congruence.
  - intros s1 tok s2 E1 E2. unfold parse_header in H. rewrite E1, E2 in H.
    destruct (8 <=? length tok)%nat eqn:E8; [discriminate|lia].
Qed.

(* ------------------------------------------------------- the two halves of open *)
Definition open_attrs (e : env) (f : fs) (base : bytes) : out (option attrset) :=
  '(rc1, s1) <- attrset_read_v1 (e_realloc e) (e_me e) (attrset_create (e_malloc e)) (file_contents f (attr1_path base)) ;;
  if negb (rc1 =? 0) then Ret None else
  match fopen_r f (attr2_path base) with
  | Some None => Ret None
  | _ =>
  '(rc2, s2) <- attrset_read_v2 (e_realloc e) (e_me e) s1 (file_contents f (attr2_path base)) ;;
  if negb (rc2 =? 0) then Ret None else Ret (Some s2)
  end.

Lemma open_split e f base : block_name base -> big_block_open e f base =
  (a <- open_attrs e f base ;;
   match a with
   | None => Ret None
   | Some s =>
     match fs_get f (header_path base) with
     | Some (File c) => h <- parse_header c ;;
        Ret (match h with None => None | Some h => Some (block_of_header base s h) end)
     | _ => Ret None
     end
   end).
Proof.
  intros (Hm & Hl & _). unfold big_block_open, open_attrs. rewrite strdup_id by auto.
  destruct (attrset_read_v1 _ _ _ _) as [[rc1 s1]|u|]; cbn [bind]; auto.
  destruct (negb (rc1 =? 0)); [reflexivity|].
  assert (E : forall X Y : out (option block), X = Y ->
     match fopen_r f (attr2_path base) with Some None => Ret None | _ => X end =
     match fopen_r f (attr2_path base) with Some None => Ret None | _ => Y end) by (intros X Y ->; auto).
  destruct (fopen_r f (attr2_path base)) as [[c2|]|]; cbn [bind]; auto;
    (destruct (attrset_read_v2 _ _ _ _) as [[rc2 s2]|u|]; cbn [bind]; auto;
     destruct (negb (rc2 =? 0)); [reflexivity|]; cbn [bind]; rewrite Hm; unfold fopen_r;
     destruct (fs_get f (header_path base)) as [[|c]|]; auto;
     destruct (parse_header c) as [[h|]|u|]; reflexivity).
Qed.

Lemma open_attrs_frame e f f' base : fs_get f' (attr1_path base) = fs_get f (attr1_path base) ->
  fs_get f' (attr2_path base) = fs_get f (attr2_path base) -> open_attrs e f' base = open_attrs e f base.
Proof. intros H1 H2. unfold open_attrs, file_contents, fopen_r. rewrite H1, H2. reflexivity. Qed.

Lemma open_attrs_none e f base : fs_get f (attr1_path base) = None ->
  fs_get f (attr2_path base) = None \/ fs_get f (attr2_path base) = Some (File []) ->
  exists s, open_attrs e f base = Ret (Some s) /\ as_ok (e_me e) s [] /\ as_dirty s = false.
Proof.
  intros H1 H2. exists (set_dirty (attrset_create (e_malloc e)) false).
  split; [|split; [apply as_ok_dirty, create_ok|reflexivity]].
  unfold open_attrs, file_contents, fopen_r. rewrite H1. destruct H2 as [->| ->]; reflexivity.
Qed.

(* ------------------------------------------------------- results *)
(* What open yields: offsets are running sums modulo 2^64. *)
Lemma offsets_mod : forall l acc, 0 <= acc < 2 ^ 64 ->
  offsets acc l = map (fun i => (acc + zsum (firstn i l)) mod 2 ^ 64) (seq 0 (S (length l))).
Proof.
  induction l as [|x l IH]; intros acc Ha.
  - cbn. rewrite Z.add_0_r, Z.mod_small by auto. reflexivity.
  - cbn [offsets]. change (seq 0 (S (length (x :: l)))) with (0%nat :: seq 1 (S (length l))). rewrite map_cons.
    change (zsum (firstn 0 (x :: l))) with 0. rewrite Z.add_0_r, (Z.mod_small acc) by auto. f_equal. rewrite IH by apply u64_range.
    rewrite <- (seq_shift (S (length l)) 0).
    rewrite map_map. apply map_ext. intros i. cbn [firstn zsum fold_right]. unfold u64.
    rewrite Zplus_mod_idemp_l. f_equal. unfold zsum. lia.
Qed.

(* Flushing a block whose attributes are clean. *)
Lemma flush_table e f b sizes : has_layout b sizes -> block_dir f (b_base b) -> b_dirty b = true ->
  as_dirty (b_attrset b) = false ->
  exists f', big_block_flush e f b = Ret (0, f', set_bdirty b false) /\ block_dir f' (b_base b) /\
    fs_get f' (header_path (b_base b)) = Some (File (table_text b sizes)) /\
    only_changes f f' (fun p => p = header_path (b_base b)).
Proof.
  intros H Hd Hb Ha. unfold big_block_flush. rewrite Hb.
  pose proof Hd as (D1 & D2 & D3 & D4). unfold header_path in *.
  rewrite (fopen_w_ok f (b_base b) (lit "header") header_plain) by auto.
  rewrite (header_image_text b sizes H). cbn [bind]. change (negb (0 =? 0)) with false. cbv iota.
  change (as_dirty (b_attrset (set_bdirty b false))) with (as_dirty (b_attrset b)). rewrite Ha.
  eexists. split; [reflexivity|]. split; [|split].
  - apply block_dir_set; [apply header_plain|]. apply block_dir_set; [apply header_plain|]. auto.
  - apply fs_get_set_same. apply header_path_proper.
  - intros p Hp. rewrite !fs_get_set_other by auto. reflexivity.
Qed.

Lemma open_attrs_of e f base b0 : block_name base -> big_block_open e f base = Ret (Some b0) ->
  open_attrs e f base = Ret (Some (b_attrset b0)).
Proof.
  intros Hn H. rewrite open_split in H by auto.
  destruct (open_attrs e f base) as [[s|]|u|]; cbn [bind] in H; try discriminate.
  destruct (fs_get f (header_path base)) as [[|c]|]; try discriminate.
  destruct (parse_header c) as [[h|]|u|]; cbn [bind] in H; try discriminate. injection H as <-. reflexivity.
Qed.

Lemma open_by_header e f base s c : block_name base -> open_attrs e f base = Ret (Some s) ->
  fs_get f (header_path base) = Some (File c) ->
  big_block_open e f base = (h <- parse_header c ;;
        Ret (match h with None => None | Some h => Some (block_of_header base s h) end)).
Proof. intros Hn Ha Hh. rewrite open_split, Ha by auto. cbn [bind]. rewrite Hh. reflexivity. Qed.

Lemma flush_open_table e f b0 b sizes : block_name (b_base b) -> block_dir f (b_base b) ->
  big_block_open e f (b_base b) = Ret (Some b0) ->
  has_layout b sizes -> header_type (b_dtype b) -> 0 <= b_nmemb b < 2 ^ 31 -> zlen sizes <= 2 ^ 24 ->
  b_dirty b = true -> as_dirty (b_attrset b) = false ->
  exists f' b' b2, big_block_flush e f b = Ret (0, f', b') /\ big_block_open e f' (b_base b) = Ret (Some b2) /\
    same_table b b2 /\ has_layout b2 sizes /\ b_attrset b2 = b_attrset b0.
Proof.
  intros Hn Hd Ho H Ht Hnm HN Hb Ha. destruct (flush_table e f b sizes H Hd Hb Ha) as (f' & Ef & Hd' & Hh & O).
  pose proof (open_attrs_of _ _ _ _ Hn Ho) as Hat.
  assert (Hat' : open_attrs e f' (b_base b) = Ret (Some (b_attrset b0))).
  { rewrite <- Hat. apply open_attrs_frame; apply O; intros E; symmetry in E; revert E; [apply header_not_attr1|apply header_not_attr2]. }
  destruct (read_back_block (b_base b) (b_attrset b0) b sizes H eq_refl) as (S1 & S2 & S3 & S4).
  exists f', (set_bdirty b false). eexists. split; [exact Ef|]. split.
  - rewrite (open_by_header _ _ _ _ _ Hn Hat' Hh), (parse_table b sizes H Ht Hnm HN). reflexivity.
  - auto.
Qed.

Lemma open_cut e f f1 b0 b sizes p t : block_name (b_base b) ->
  big_block_open e f (b_base b) = Ret (Some b0) ->
  has_layout b sizes -> header_type (b_dtype b) -> 0 <= b_nmemb b < 2 ^ 31 -> zlen sizes <= 2 ^ 24 ->
  header_image b = Ret (p ++ t) ->
  only_changes f f1 (fun q => q = header_path (b_base b)) ->
  fs_get f1 (header_path (b_base b)) = Some (File p) ->
  big_block_open e f1 (b_base b) = Ret None \/
  exists b2, big_block_open e f1 (b_base b) = Ret (Some b2) /\ same_table b b2 /\ has_layout b2 sizes.
Proof.
  intros Hn Ho H Ht Hnm HN Himg O Hh. rewrite (header_image_text b sizes H) in Himg. injection Himg as Himg.
  pose proof (open_attrs_of _ _ _ _ Hn Ho) as Hat.
  assert (Hat' : open_attrs e f1 (b_base b) = Ret (Some (b_attrset b0))).
  { rewrite <- Hat. apply open_attrs_frame; apply O; intros E; symmetry in E; revert E; [apply header_not_attr1|apply header_not_attr2]. }
  rewrite (open_by_header _ _ _ _ _ Hn Hat' Hh).
  destruct (parse_table_cut b sizes p H Ht Hnm HN) as [->| ->]; [exists t; auto|left; reflexivity|].
  right. destruct (read_back_block (b_base b) (b_attrset b0) b sizes H eq_refl) as (S1 & S2 & S3 & S4).
  eexists. split; [reflexivity|]. auto.
Qed.

Lemma normalize_readable me d : Forall (fun c => is_space c = false /\ c <> x00) d -> readable_type (dtype_normalize me d).
Proof.
  intros H. rewrite normalize_spec. split; [discriminate|]. split.
  - cbn [length]. pose proof (firstn_le_length 6 (dtype_body d)). lia.
  - constructor.
    + destruct (order_char_is me d) as [->| ->]; split; (reflexivity || discriminate).
    + assert (Hb : Forall (fun c => is_space c = false /\ c <> x00) (dtype_body d)).
      { unfold dtype_body. destruct d as [|c r]; auto. destruct (_ || _ || _ || _); auto. inversion H; auto. }
      rewrite Forall_forall in *. intros x Hx. apply Hb. rewrite <- (firstn_skipn 6 (dtype_body d)). apply in_or_app. auto.
Qed.

Lemma create_open e f base d nmemb sizes : block_name base -> block_dir f base -> layout_ok sizes ->
  fs_get f (attr1_path base) = None ->
  Forall (fun c => is_space c = false /\ c <> x00) d -> - 2 ^ 31 <= nmemb < 2 ^ 31 ->
  exists f' b, big_block_create e f base (Some d) nmemb (zlen sizes) sizes = Ret (f', Some b) /\
    has_layout b sizes /\
    if acceptable (dtype_normalize (e_me e) d) nmemb (zlen sizes)
    then exists b2, big_block_open e f' base = Ret (Some b2) /\ same_table b b2 /\ has_layout b2 sizes /\
           as_ok (e_me e) (b_attrset b2) []
    else big_block_open e f' base = Ret None.
Proof.
  intros Hn Hd Hl Ha Hs Hnm. destruct (create_spec e f base d nmemb sizes Hn Hd Hl)
    as (f' & b & E & Lay & Edt & Enm & Eb & Hok & Hdi & Hadi & Hck & Hd' & Hh & Ha2 & Hdata & O).
  exists f', b. split; [exact E|]. split; [exact Lay|].
  assert (Ha' : fs_get f' (attr1_path base) = None).
  { rewrite O; auto. intros [X|[X|(j & Hj & X)]]; [symmetry in X; revert X; apply header_not_attr1|revert X; apply attr1_not_attr2|symmetry in X; revert X; apply data_not_attr1; lia]. }
  destruct (open_attrs_none e f' base Ha') as (s & Es & Os & _); [auto|].
  rewrite (open_by_header _ _ _ _ _ Hn Es Hh). rewrite (parse_table_exact b sizes Lay); [|rewrite Edt; apply normalize_readable; auto|lia].
  rewrite Edt, Enm. destruct (acceptable _ _ _); cbn [bind]; auto.
  destruct (read_back_block base s b sizes Lay (eq_sym Eb)) as (S1 & S2 & S3 & S4).
  eexists. split; [reflexivity|]. split; [auto|]. split; [auto|]. rewrite S3. auto.
Qed.

Lemma zsum_app a b : zsum (a ++ b) = zsum a + zsum b.
Proof. unfold zsum. induction a; simpl; lia. Qed.

Lemma open_result e f base b : block_name base -> big_block_open e f base = Ret (Some b) ->
  dtype_isvalid (b_dtype b) = true /\ 0 <= b_nmemb b < 2 ^ 31 /\ 0 <= b_Nfile b < 2 ^ 31 - 2 /\
  zlen (b_fsize b) = b_Nfile b + 1 /\ zlen (b_fchecksum b) = b_Nfile b + 1 /\ zlen (b_foffset b) = b_Nfile b + 1 /\
  (forall i, 0 <= i <= b_Nfile b ->
     znth (b_foffset b) i = Some (zsum (firstn (Z.to_nat i) (b_fsize b)) mod 2 ^ 64)) /\
  b_size b = zsum (b_fsize b) mod 2 ^ 64.
Proof.
  intros Hn H. rewrite open_split in H by auto.
  destruct (open_attrs e f base) as [[s|]|u|]; cbn [bind] in H; try discriminate.
  destruct (fs_get f (header_path base)) as [[|c]|]; try discriminate.
  destruct (parse_header c) as [[h|]|u|] eqn:Ep; cbn [bind] in H; try discriminate. injection H as <-.
  apply parse_shape in Ep. destruct Ep. unfold block_of_header.
  cbn [b_dtype b_nmemb b_Nfile b_fsize b_fchecksum b_foffset b_size].
  set (N := Z.to_nat (h_Nfile h)) in *.
  assert (Hl : length (firstn N (h_fsize h)) = N) by (rewrite firstn_length; lia).
  assert (Ho : offsets 0 (firstn N (h_fsize h)) = map (fun i => (0 + zsum (firstn i (firstn N (h_fsize h)))) mod 2 ^ 64) (seq 0 (S N))).
  { rewrite offsets_mod by lia. rewrite Hl. reflexivity. }
  assert (Hsplit : h_fsize h = firstn N (h_fsize h) ++ [0]).
  { rewrite <- (firstn_skipn N (h_fsize h)) at 1. f_equal. rewrite <- hs_last0.
    clear - hs_fsize0. revert hs_fsize0. generalize (h_fsize h). revert N. induction N as [|N IH]; intros [|x [|y l]] Hl; simpl in *; try lia; auto.
    - f_equal. apply IH. simpl. lia. }
  split; [auto|]. split; [auto|]. split; [lia|]. split; [unfold zlen; lia|]. split; [unfold zlen; lia|].
  split; [rewrite Ho; unfold zlen; rewrite map_length, seq_length; lia|]. split.
  - intros i Hi. rewrite Ho, znth_to_nat by lia.
    rewrite (map_nth_error _ (Z.to_nat i) (seq 0 (S N)) (d := Z.to_nat i)).
    + rewrite firstn_firstn, Nat.min_l by lia. reflexivity.
    + rewrite (nth_error_nth' _ 0%nat) by (rewrite seq_length; lia). rewrite seq_nth by lia. reflexivity.
  - rewrite Ho, seq_S, map_app; cbn [map Nat.add]; rewrite last_last. rewrite Hsplit at 2. rewrite zsum_app.
    cbn [Nat.add]. rewrite firstn_firstn, Nat.min_id. f_equal. simpl. lia.
Qed.

Lemma open_safe e f base c : block_name base ->
  fs_get f (attr1_path base) = None -> fs_get f (attr2_path base) = None ->
  fs_get f (header_path base) = Some (File c) -> short_type c ->
  exists r, big_block_open e f base = Ret r.
Proof.
  intros Hn H1 H2 Hh Hs. destruct (open_attrs_none e f base H1 (or_introl H2)) as (s & Es & _).
  rewrite (open_by_header _ _ _ _ _ Hn Es Hh). destruct (parse_total c Hs) as [->|(h & -> & _)]; cbn [bind]; eauto.
Qed.

Lemma create_open_shows e f base d nmemb sizes :
  block_name base -> block_dir f base -> layout_ok sizes ->
  fs_get f (attr1_path base) = None ->
  Forall (fun c => is_space c = false /\ c <> x00) d -> - 2 ^ 31 <= nmemb < 2 ^ 31 ->
  exists f' b, big_block_create e f base (Some d) nmemb (zlen sizes) sizes = Ret (f', Some b) /\
    has_layout b sizes /\
    if acceptable (dtype_normalize (e_me e) d) nmemb (zlen sizes)
    then exists b2, big_block_open e f' base = Ret (Some b2) /\ same_table b b2 /\ has_layout b2 sizes /\
           forall name, attr_shows (b_attrset b2) name None
    else big_block_open e f' base = Ret None.
Proof.
  intros H1 H2 H3 H4 H5 H6. destruct (create_open e f base d nmemb sizes H1 H2 H3 H4 H5 H6) as (f' & b & E & L & O).
  exists f', b. split; [auto|]. split; [auto|]. destruct (acceptable _ _ _); auto.
  destruct O as (b2 & E2 & S2 & L2 & A2). exists b2. split; [auto|]. split; [auto|]. split; [auto|].
  intros name. exact (ok_shows _ _ _ name A2).
Qed.

Lemma normalize_cases me :
  (forall r, dtype_normalize me ("<"%byte :: r) = "<"%byte :: firstn 6 r) /\
  (forall r, dtype_normalize me (">"%byte :: r) = ">"%byte :: firstn 6 r) /\
  (forall r, dtype_normalize me ("="%byte :: r) = machine_char me :: firstn 6 r) /\
  (forall r, dtype_normalize me ("|"%byte :: r) = machine_char me :: firstn 6 r) /\
  (forall c r, c <> "<"%byte -> c <> ">"%byte -> c <> "="%byte -> c <> "|"%byte ->
     dtype_normalize me (c :: r) = machine_char me :: firstn 6 (c :: r)) /\
  dtype_normalize me [] = [machine_char me].
Proof.
  do 4 (split; [intros; rewrite normalize_spec; reflexivity|]). split; [|reflexivity].
  intros c r H1 H2 H3 H4. rewrite normalize_spec. unfold order_char, dtype_body.
  apply byte_eqb_neq in H1, H2, H3, H4. rewrite H1, H2, H3, H4. reflexivity.
Qed.

Lemma normalize_canonical me me' s :
  (length (dtype_normalize me s) <= 7)%nat /\
  dtype_normalize me' (dtype_normalize me s) = dtype_normalize me s /\
  itemsize me' (dtype_normalize me s) = itemsize me s /\
  dtype_kind me' (dtype_normalize me s) = dtype_kind me s.
Proof.
  split; [rewrite normalize_spec; cbn [length]; pose proof (firstn_le_length 6 (dtype_body s)); lia|].
  split; [apply normalize_idem|]. unfold itemsize, dtype_kind. rewrite normalize_idem. auto.
Qed.

Lemma grow_all f b sizes gs w : has_layout b sizes -> block_dir f (b_base b) -> layout_ok (sizes ++ gs) -> 0 < w ->
  exists f' b', big_block_grow f b (zlen gs) gs = Ret (0, f', b') /\
    has_layout b' (sizes ++ gs) /\ b_size b' = b_size b + zsum gs /\
    b_dtype b' = b_dtype b /\ b_nmemb b' = b_nmemb b /\ b_base b' = b_base b /\
    b_attrset b' = b_attrset b /\
    (forall i, (i < length sizes)%nat -> nth_error (b_fchecksum b') i = nth_error (b_fchecksum b) i) /\
    (forall r, 0 <= r < zsum sizes -> stored_row f' (b_base b) (sizes ++ gs) w r = stored_row f (b_base b) sizes w r) /\
    (forall r, zsum sizes <= r -> stored_row f' (b_base b) (sizes ++ gs) w r = None) /\
    only_changes f f' (fun p => exists j, zlen sizes <= j < zlen sizes + zlen gs /\ p = data_path (b_base b) j).
Proof.
  intros H Hd Hl Hw. destruct (grow_spec f b sizes gs H Hd Hl) as (f' & b' & E & L & E1 & E2 & E3 & E4 & E5 & E6 & Hd' & G & O).
  destruct Hl as (L1 & L2 & L3). rewrite zlen_app in L3.
  destruct (grow_rows f f' (b_base b) sizes gs w Hw (hl_nonneg _ _ H) L3 G O) as [R1 R2].
  exists f', b'. split; [exact E|]. split; [exact L|].
  split; [rewrite (hl_size _ _ L), (hl_size _ _ H); apply zsum_app|]. do 4 (split; [assumption|]).
  split; [|auto]. intros i Hi. rewrite E6. rewrite nth_error_app1 by (rewrite firstn_length, (hl_cks _ _ H); lia).
  clear - Hi. revert i Hi. generalize (b_fchecksum b). induction (length sizes) as [|n IH]; intros [|x l] [|i] Hi; simpl; auto; try lia.
  apply IH. lia.
Qed.

Lemma grow_persists e f b0 b sizes gs : has_layout b sizes -> block_name (b_base b) ->
  block_dir f (b_base b) -> big_block_open e f (b_base b) = Ret (Some b0) ->
  header_type (b_dtype b) -> 0 <= b_nmemb b < 2 ^ 31 -> as_dirty (b_attrset b) = false ->
  layout_ok (sizes ++ gs) -> zlen (sizes ++ gs) <= 2 ^ 24 ->
  exists f1 b1 f2 b2 b3, big_block_grow f b (zlen gs) gs = Ret (0, f1, b1) /\
    big_block_flush e f1 b1 = Ret (0, f2, b2) /\ big_block_open e f2 (b_base b) = Ret (Some b3) /\
    same_table b1 b3 /\ has_layout b3 (sizes ++ gs) /\ b_attrset b3 = b_attrset b0.
Proof.
  intros H Hn Hd Ho Ht Hnm Ha Hl HN.
  destruct (grow_spec f b sizes gs H Hd Hl) as (f1 & b1 & E & L & E1 & E2 & E3 & E4 & E5 & E6 & Hd' & G & O).
  pose proof (zlen_nonneg sizes) as Hz.
  assert (Ho1 : exists b00, big_block_open e f1 (b_base b1) = Ret (Some b00) /\ b_attrset b00 = b_attrset b0).
  { rewrite E3. exists b0. split; auto. rewrite <- Ho. rewrite !open_split by auto. f_equal.
    - apply open_attrs_frame; apply O; intros (j & Hj & X); symmetry in X; revert X; [apply data_not_attr1|apply data_not_attr2]; lia.
    - rewrite O; auto. intros (j & Hj & X); symmetry in X; revert X. apply data_not_header; lia. }
  destruct Ho1 as (b00 & Ho1 & Eb00).
  destruct (flush_open_table e f1 b00 b1 (sizes ++ gs)) as (f2 & b2 & b3 & F1 & F2 & F3 & F4 & F5); try (rewrite ?E1, ?E2, ?E3, ?E4; auto; fail); auto.
  rewrite E3 in F2. exists f1, b1, f2, b2, b3. rewrite <- Eb00. auto 10.
Qed.

Lemma create_over e f base d nmemb sizes w :
  block_name base -> block_dir f base -> layout_ok sizes -> 0 < w ->
  fs_get f (attr1_path base) = None ->
  header_type (dtype_normalize (e_me e) d) -> 0 <= nmemb < 2 ^ 31 -> zlen sizes <= 2 ^ 24 ->
  exists f' b b2, big_block_create e f base (Some d) nmemb (zlen sizes) sizes = Ret (f', Some b) /\
    big_block_open e f' base = Ret (Some b2) /\
    has_layout b sizes /\ has_layout b2 sizes /\
    (forall r, stored_row f' base sizes w r = None) /\
    (forall name, attr_shows (b_attrset b) name None) /\
    (forall name, attr_shows (b_attrset b2) name None) /\
    only_changes f f' (fun p => p = header_path base \/ p = attr2_path base \/
       exists j, 0 <= j < zlen sizes /\ p = data_path base j).
Proof.
  intros Hn Hd Hl Hw Ha Ht Hnm HN. destruct (create_spec e f base d nmemb sizes Hn Hd Hl)
    as (f' & b & E & Lay & Edt & Enm & Eb & Hok & Hdi & Hadi & Hck & Hd' & Hh & Ha2 & Hdata & O).
  assert (Ha' : fs_get f' (attr1_path base) = None).
  { rewrite O; auto. intros [X|[X|(j & Hj & X)]]; [symmetry in X; revert X; apply header_not_attr1|revert X; apply attr1_not_attr2|symmetry in X; revert X; apply data_not_attr1; lia]. }
  destruct (open_attrs_none e f' base Ha') as (s & Es & Os & _); [auto|].
  destruct (read_back_block base s b sizes Lay (eq_sym Eb)) as (S1 & S2 & S3 & S4).
  exists f', b. eexists. split; [exact E|]. split.
  { rewrite (open_by_header _ _ _ _ _ Hn Es Hh), (parse_table b sizes Lay); [reflexivity|rewrite Edt; auto|lia|auto]. }
  split; [exact Lay|]. split; [exact S2|]. split; [intros r; apply fresh_rows; auto|].
  split; [intros name; exact (ok_shows _ _ _ name Hok)|]. split; [|exact O].
  intros name. rewrite S3. exact (ok_shows _ _ _ name Os).
Qed.
