(* Proofs about truncated and legacy attribute files. *)
From Coq.Strings Require Import Byte String.
From Coq Require Import List ZArith Lia Bool ZifyBool ZifyNat Sorted Permutation.
From Verif Require Import Base BaseFacts Dtype Cast Array FS Fmt Attr Block Spec AttrSpec OpenSpec SessSpec AttrFileSpec
  SeekFacts FSFacts ConvFacts HeaderFacts DtypeFacts AttrFacts TextFacts OpenFacts ReopenFacts SessFacts.
Import ListNotations.
Open Scope Z_scope.
Local Open Scope out_scope.
Ltac Zify.zify_post_hook ::= Z.div_mod_to_equations.

Definition noblank (l : bytes) : Prop := Forall (fun c => isblank c = false) l.

Lemma expect_none l : noblank l -> expect l = Undef OOB.
Proof.
  intros H. unfold expect. destruct H as [|c l Hc Hl]; [reflexivity|]. cbn [skip_blank]. rewrite Hc.
  assert (E : forall l, noblank l -> take_token l = Undef OOB).
  { clear. induction 1 as [|c l Hc Hl IH]; [reflexivity|]. cbn [take_token]. rewrite Hc, IH. reflexivity. }
  rewrite E; [reflexivity|]. constructor; auto.
Qed.

Lemma app_cut {A} (a b p q : list A) : a ++ b = p ++ q ->
  (exists r, a = p ++ r /\ r <> []) \/ (exists r, p = a ++ r /\ b = r ++ q).
Proof.
  revert p. induction a as [|x a IH]; intros p H.
  - right. exists p. auto.
  - destruct p as [|y p]; [left; exists (x :: a); split; [auto|discriminate]|]. injection H as -> H.
    destruct (IH _ H) as [(r & -> & Hr)|(r & -> & Hr)]; [left|right]; exists r; auto.
Qed.

Lemma tok_noblank t : tok t -> noblank t.
Proof. intros [_ H]. eapply Forall_impl; [|exact H]. cbv beta. tauto. Qed.

(* One token of a truncated text. *)
Lemma expect_cut t rest p q : tok t -> t ++ lit " " ++ rest = p ++ q ->
  expect (p ++ [x00]) = Undef OOB \/
  exists p', p = t ++ lit " " ++ p' /\ rest = p' ++ q /\ expect (p ++ [x00]) = Ret (t, p' ++ [x00]).
Proof.
  intros Ht H. destruct (app_cut _ _ _ _ H) as [(r & E & Hr)|(r & E & Hr)].
  - left. apply expect_none. apply Forall_app. split; [|repeat constructor].
    apply tok_noblank in Ht. unfold noblank in Ht. rewrite E in Ht. apply Forall_app in Ht. tauto.
  - destruct r as [|c r]; [left; rewrite E, app_nil_r; apply expect_none; apply Forall_app; split; [apply tok_noblank; auto|repeat constructor]|].
    cbn [lit list_byte_of_string app] in Hr. injection Hr as <- Hr. right. exists r. split; [exact E|]. split; [exact Hr|].
    rewrite E. rewrite <- app_assoc. change (t ++ (" "%byte :: r) ++ [x00]) with (t ++ lit " " ++ (r ++ [x00])). apply expect_spec. auto.
Qed.

Definition text_head (e : entry) : bytes :=
  fst e ++ lit " " ++ av_dtype (snd e) ++ lit " " ++ print_signed (av_nmemb (snd e)) ++ lit " " ++ hex_print (av_data (snd e)) ++ lit " ".
Definition text_tail (t : bytes) : bytes := lit "#HUMANE [ " ++ t ++ lit " ]".
Lemma text_line_split e t : text_line e t = text_head e ++ text_tail t ++ [x0a].
Proof. unfold text_line, text_head, text_tail. rewrite <- !app_assoc. reflexivity. Qed.
Lemma text_tail_clean t : clean t -> clean (text_tail t).
Proof. intros. unfold text_tail. apply clean_app; [repeat constructor; discriminate|]. apply clean_app; auto. repeat constructor; discriminate. Qed.

Lemma sav_nonnil me e : savable me e -> line_entry_ok me e -> av_data (snd e) <> [].
Proof.
  intros [] [[_ Hw] Hl] E. rewrite E in Hl. change (zlen []) with 0 in Hl. nia.
Qed.
Lemma text_head_clean me e : savable me e -> line_entry_ok me e -> clean (text_head e).
Proof.
  intros Hs Hl. pose proof (sav_nonnil _ _ Hs Hl). destruct Hs. unfold text_head.
  repeat (apply clean_app; [first [apply tok_clean; (assumption || (apply print_signed_tok; lia) || (apply hex_tok; assumption)) | repeat constructor; discriminate]|]).
  repeat constructor; discriminate.
Qed.

Lemma first_nz me e p q : savable me e -> text_head e = p ++ q -> p <> [] -> exists c r, p ++ [x00] = c :: r /\ Byte.eqb c x00 = false.
Proof.
  intros Hs H Hp. destruct Hs. destruct p as [|c p]; [congruence|]. exists c, (p ++ [x00]). split; [reflexivity|].
  unfold text_head in H. destruct sv_name as [Hn Hf]. destruct (fst e) as [|c' n]; [congruence|]. cbn [app] in H. injection H as <- _.
  inversion Hf as [|? ? (_ & _ & Hc) _]; subst. apply byte_eqb_neq. auto.
Qed.

(* Cut inside the first four fields. *)
Lemma read_cut_head ra me s e p q k : savable me e -> line_entry_ok me e ->
  text_head e = p ++ q -> p <> [] -> q <> [] -> read_v2_loop ra me s (p ++ [x00]) (S k) = Undef OOB.
Proof.
  intros Hs Hl H Hp Hq. destruct (first_nz _ _ _ _ Hs H Hp) as (c & r & Ec & Hc).
  cbn [read_v2_loop]. rewrite Ec. cbv iota. rewrite Hc. rewrite <- Ec. clear Ec Hc c r.
  pose proof (sav_nonnil _ _ Hs Hl) as Hv. destruct Hs. unfold text_head in H.
  destruct (expect_cut _ _ _ _ sv_name H) as [->|(p1 & E1 & H1 & ->)]; [reflexivity|]. cbn [bind].
  destruct (expect_cut _ _ _ _ sv_dtype H1) as [->|(p2 & E2 & H2 & ->)]; [reflexivity|]. cbn [bind].
  destruct (expect_cut _ _ _ _ (print_signed_tok (av_nmemb (snd e)) ltac:(lia)) H2) as [->|(p3 & E3 & H3 & ->)]; [reflexivity|]. cbn [bind].
  destruct (expect_cut (hex_print (av_data (snd e))) [] p3 q) as [->|(p4 & E4 & H4 & ->)]; [apply hex_tok; auto|rewrite app_nil_r; exact H3|reflexivity|].
  exfalso. destruct p4; [|discriminate]. destruct q; [congruence|discriminate].
Qed.

Lemma skip_line_end t : clean t -> skip_line (t ++ [x00]) = Ret [x00].
Proof.
  induction 1 as [|c t [H1 H2] Ht IH]; [reflexivity|]. cbn [app skip_line]. apply byte_eqb_neq in H1, H2. rewrite H1, H2. exact IH.
Qed.

(* Cut after the data. *)
Lemma read_cut_tail ra me s m e p k : as_ok me s m -> savable me e -> line_entry_ok me e -> clean p ->
  as_bufused s + esize e <= 2 ^ 61 ->
  exists s' m', read_v2_loop ra me s ((text_head e ++ p) ++ [x00]) (S (S k)) = Ret (0, s') /\
    as_ok me s' m' /\ (forall n, assoc n m' = if bytes_eqb n (fst e) then Some (snd e) else assoc n m).
Proof.
  intros H Hs [Hdt Hlen] Ht Hsz. pose proof (sav_nonnil _ _ Hs (conj Hdt Hlen)) as Hv.
  destruct (first_nz me e (text_head e) []) as (c & r & Ec & Hc); auto; [rewrite app_nil_r; auto|intros E; destruct Hs; unfold text_head in E; destruct sv_name; destruct (fst e); [congruence|discriminate]|].
  assert (Efst : exists r', (text_head e ++ p) ++ [x00] = c :: r').
  { destruct (text_head e) as [|c' h]; [exfalso; simpl in Ec; injection Ec as <- _; discriminate|]. simpl in Ec. injection Ec as -> _. eexists. reflexivity. }
  destruct Efst as (r' & Er').
  assert (Hstep : read_v2_loop ra me s ((text_head e ++ p) ++ [x00]) (S (S k)) =
    ('(name, l1) <- expect ((text_head e ++ p) ++ [x00]) ;;
          '(dtype, l2) <- expect l1 ;;
          '(rawlength, l3) <- expect l2 ;;
          '(rawdata, l4) <- expect l3 ;;
          l5 <- skip_line l4 ;;
          let nmemb := atoi_int rawlength in
          let isz := itemsize me dtype in
          let n := nmemb * isz in
          if (2 ^ 31 <=? n * 2) || (n * 2 <? - 2 ^ 31) then Undef IntOverflow else
          if negb (u64 (n * 2) =? zlen rawdata) then Ret (-1, s) else
          let data := hex_bytes rawdata in
          '(rc, s', _) <- attrset_set_attr ra me s name (mem_of 0 data) 0 dtype nmemb ;;
          if negb (rc =? 0) then Ret (-1, s')
          else read_v2_loop ra me s' l5 (S k))).
  { rewrite Er'. cbn [read_v2_loop]. rewrite Hc. reflexivity. }
  rewrite Hstep. clear Hstep Er' Ec Hc r r' c.
  destruct Hs. destruct e as [name [d n v]]. unfold text_head, esize in *. cbn [fst snd av_dtype av_nmemb av_data] in *.
  replace (((name ++ lit " " ++ d ++ lit " " ++ print_signed n ++ lit " " ++ hex_print v ++ lit " ") ++ p) ++ [x00])
    with (name ++ lit " " ++ d ++ lit " " ++ print_signed n ++ lit " " ++ hex_print v ++ lit " " ++ (p ++ [x00])).
  2: { rewrite <- !app_assoc. reflexivity. }
  rewrite (expect_spec name) by auto. cbn [bind]. rewrite (expect_spec d) by auto. cbn [bind].
  rewrite (expect_spec (print_signed n)) by (apply print_signed_tok; lia). cbn [bind].
  rewrite (expect_spec (hex_print v)) by (apply hex_tok; auto). cbn [bind].
  rewrite skip_line_end by auto. cbn [bind]. rewrite atoi_int_print by lia. cbv zeta.
  pose proof (zlen_nonneg v). rewrite <- Hlen. pose proof Hdt as [Hnorm Hw].
  destruct ((2 ^ 31 <=? zlen v * 2) || (zlen v * 2 <? - 2 ^ 31)) eqn:E; [lia|]. clear E.
  rewrite hex_len. unfold u64. rewrite Z.mod_small by lia. replace (zlen v * 2 =? 2 * zlen v) with true by lia. cbn [negb].
  rewrite hex_round. destruct (tok_no_blank _ sv_name) as [Hb Hnul].
  destruct (set_spec ra me s m name (mem_of 0 v) 0 d n v) as (s' & um' & m' & Es & A & B & C & D & _); auto; try lia.
  { replace (Z.to_nat (n * itemsize me d)) with (length v) by (unfold zlen in *; lia). apply load_mem_of. }
  rewrite Es. cbn [bind]. change (negb (0 =? 0)) with false. cbv iota.
  exists s', m'. split; [reflexivity|]. split; [exact A|]. intros q. rewrite C, Hnorm. reflexivity.
Qed.

Lemma count_clean p : clean p -> count_lines p = 0%nat.
Proof. unfold count_lines. induction 1 as [|c p [H _] Hp IH]; auto. cbn [filter]. apply byte_eqb_neq in H. rewrite H. auto. Qed.
Lemma count_app p q : count_lines (p ++ q) = (count_lines p + count_lines q)%nat.
Proof. unfold count_lines. rewrite filter_app, app_length. auto. Qed.
Lemma last_clean p d : clean p -> p <> [] -> last p d <> x0a.
Proof.
  intros H Hn. rewrite (app_removelast_last d Hn) in H. apply Forall_app in H. destruct H as [_ H]. inversion H. tauto.
Qed.
Lemma last_app' {A} (a b : list A) d : b <> [] -> last (a ++ b) d = last b d.
Proof.
  intros H. induction a as [|x a IH]; auto. cbn [app]. destruct (a ++ b) eqn:E; [destruct a; [contradiction|discriminate]|].
  change (last (x :: a0 :: l) d) with (last (a0 :: l) d). auto.
Qed.

Lemma read_cut ra me : forall es ts p q s m k, as_ok me s m -> Forall (savable me) es -> Forall (line_entry_ok me) es ->
  Forall clean ts -> length ts = length es -> NoDup (map fst es) -> as_bufused s + total es <= 2 ^ 61 ->
  text_lines es ts = p ++ q -> (length p < k)%nat ->
  (read_v2_loop ra me s (p ++ [x00]) k = Undef OOB /\ last p x0a <> x0a) \/
  exists j s' m', read_v2_loop ra me s (p ++ [x00]) k = Ret (0, s') /\ as_ok me s' m' /\
    (count_lines p <= j <= S (count_lines p))%nat /\ (j <= length es)%nat /\
    (forall n, assoc n m' = match assoc n (firstn j es) with Some v => Some v | None => assoc n m end).
Proof.
  induction es as [|e es IH]; intros ts p q s m k H Hs Hl Hc Hlen Hnd Hsz Ht Hk.
  - destruct ts; [|discriminate]. cbn in Ht. destruct p; [|discriminate]. destruct k as [|k]; [simpl in Hk; lia|].
    right. exists 0%nat, s, m. split; [reflexivity|]. split; [exact H|]. cbn. split; [lia|]. split; [lia|]. auto.
  - destruct ts as [|t ts]; [discriminate|]. inversion Hs as [|? ? Hs1 Hs2]; inversion Hl as [|? ? Hl1 Hl2]; inversion Hc as [|? ? Hc1 Hc2]; inversion Hnd as [|? ? Hn1 Hn2]; subst.
    rewrite text_lines_cons in Ht.
    assert (Ht0 : 0 <= total es). { unfold total, zsum. clear. induction es as [|e es IH]; cbn [map fold_right]; [lia|]. pose proof (esize_pos e). lia. }
    assert (Hsz' : as_bufused s + (esize e + total es) <= 2 ^ 61) by exact Hsz.
    assert (Hnl : count_lines (text_line e t) = 1%nat).
    { rewrite text_line_split, !count_app. rewrite (count_clean (text_head e)) by (eapply text_head_clean; eauto). rewrite (count_clean (text_tail t)) by (apply text_tail_clean; auto). reflexivity. }
    destruct (app_cut _ _ _ _ Ht) as [(r & E & Hr)|(r & E & Hr)].
    + rewrite text_line_split in E. destruct k as [|k]; [simpl in Hk; lia|].
      destruct p as [|c0 p0] eqn:Ep.
      { right. exists 0%nat, s, m. split; [reflexivity|]. split; [exact H|]. cbn. split; [lia|]. split; [lia|]. auto. }
      rewrite <- Ep in *. assert (Hpn : p <> []) by (rewrite Ep; discriminate).
      destruct (app_cut _ _ _ _ E) as [(r1 & E1 & Hr1)|(r1 & E1 & Hr1)].
      * left. split; [eapply read_cut_head; eauto|]. apply last_clean; auto.
        pose proof (text_head_clean _ _ Hs1 Hl1) as Hcl. rewrite E1 in Hcl. apply Forall_app in Hcl. tauto.
      * assert (Hr1c : clean r1).
        { destruct (app_cut _ _ _ _ Hr1) as [(r2 & E2 & _)|(r2 & E2 & E3)].
          - pose proof (text_tail_clean t Hc1) as Hcl. rewrite E2 in Hcl. apply Forall_app in Hcl. tauto.
          - destruct r2 as [|c2 r2]; [rewrite E2, app_nil_r; apply text_tail_clean; auto|].
            exfalso. apply (f_equal (@length _)) in E3. rewrite app_length in E3. simpl in E3. destruct r; [congruence|simpl in E3; lia]. }
        right. destruct k as [|k]; [rewrite Ep in Hk; simpl in Hk; lia|].
        destruct (read_cut_tail ra me s m e r1 k) as (s' & m' & Er & A & C); auto; [lia|].
        exists 1%nat, s', m'. rewrite E1. split; [exact Er|]. split; [exact A|].
        rewrite count_app, (count_clean _ Hr1c), (count_clean (text_head e)) by (eapply text_head_clean; eauto).
        split; [lia|]. split; [simpl; lia|]. intros n. rewrite C. destruct e as [en ev]. cbn [firstn assoc fst snd]. destruct (bytes_eqb n en); auto.
    + subst p. rewrite <- app_assoc. destruct k as [|k]; [simpl in Hk; lia|].
      destruct (read_line_spec ra me s m e t (r ++ [x00]) k) as (s1 & m1 & E1 & A & B & C); auto; [lia|].
      rewrite E1. pose proof (text_line_pos e t). rewrite app_length in Hk.
      destruct (IH ts r q s1 m1 k A Hs2 Hl2 Hc2) as [(Eu & Hlast)|(j & s2 & m2 & E2 & A2 & Hj & Hj' & C2)]; auto; try lia.
      * left. split; auto. rewrite last_app'; auto. intros ->. apply Hlast. reflexivity.
      * right. exists (S j), s2, m2. split; [exact E2|]. split; [exact A2|]. rewrite count_app, Hnl.
        split; [lia|]. split; [simpl; lia|]. intros n. rewrite C2, C. destruct e as [ne ve]. cbn [firstn assoc fst snd].
        destruct (bytes_eqb n ne) eqn:En; auto. apply bytes_eqb_eq in En. subst n. cbn [fst] in *.
        assert (Hn : ~ In ne (map fst (firstn j es))). { intros Hi. apply Hn1. rewrite <- (firstn_skipn j es), map_app, in_app_iff. auto. }
        apply assoc_none in Hn. rewrite Hn. reflexivity.
Qed.

(* ------------------------------------------------------- crash *)
Lemma assoc_firstn j n d : NoDup (map fst d) ->
  assoc n (firstn j d) = if existsb (bytes_eqb n) (firstn j (map fst d)) then assoc n d else None.
Proof.
  revert j. induction d as [|[k v] d IH]; intros [|j] Hd; auto. inversion Hd as [|? ? Hk Hd']; subst.
  cbn [firstn map fst existsb assoc]. destruct (bytes_eqb n k) eqn:E; auto. cbn [orb]. apply IH. auto.
Qed.

Lemma in_assoc n d : In n (map fst d) <-> assoc n d <> None.
Proof.
  pose proof (assoc_none n d) as H. destruct (in_dec (list_eq_dec Byte.byte_eq_dec) n (map fst d)) as [Hi|Hi].
  - split; auto. intros _ E. apply H in E. contradiction.
  - split; intros Hx; [contradiction|]. apply H in Hi. contradiction.
Qed.

Lemma attr_crash e f base d nmemb sizes os f0 b0 rcs f' b' f1 p q : g_clean e ->
  block_name base -> block_dir f base -> layout_ok sizes -> fs_get f (attr1_path base) = None ->
  header_type (dtype_normalize (e_me e) d) -> 0 <= nmemb < 2 ^ 31 -> zlen sizes <= 2 ^ 24 ->
  Forall (sop_ok (e_me e)) os -> zsum (map (sop_size (e_me e)) os) <= 2 ^ 61 ->
  big_block_create e f base (Some d) nmemb (zlen sizes) sizes = Ret (f0, Some b0) ->
  srun e (f0, b0) os = Ret (rcs, (f', b')) ->
  fs_get f' (attr2_path base) = Some (File (p ++ q)) ->
  only_changes f' f1 (fun x => x = attr2_path base) -> fs_get f1 (attr2_path base) = Some (File p) ->
  exists names, sorted_names names /\
    (forall n, In n names <-> saved (snd (sspecs (e_me e) sstart os)) n <> None) /\
    ((big_block_open e f1 base = Undef OOB /\ last p x0a <> x0a) \/
     exists b2 j, big_block_open e f1 base = Ret (Some b2) /\ same_table b' b2 /\
       (count_lines p <= j <= S (count_lines p))%nat /\ (j <= length names)%nat /\
       forall n, attr_shows (b_attrset b2) n
         (if existsb (bytes_eqb n) (firstn j names) then saved (snd (sspecs (e_me e) sstart os)) n else None)).
Proof.
  intros Hg Hn Hd Hl Ha Ht Hnm HN Hos Hsz Hc Hr Hp O Hp1.
  destruct (sess_create e f base d nmemb sizes Hn Hd Hl Ha) as (f0' & b0' & E & Lay & Edt & Enm & Eb & I0).
  rewrite Hc in E. injection E as <- <-.
  destruct (sess_run e b0 sizes Hg Lay) with (os := os) (B := 0) (st := (f0, b0)) (a := sstart) (m := @nil entry) (d := @nil entry) (ts := @nil bytes)
    as (st' & m' & d' & ts' & B' & E' & I' & HB'); auto; try (rewrite ?Edt, ?Enm, ?Eb; auto; fail); try lia.
  rewrite Hr in E'. injection E' as Hrcs <-. destruct I'. cbn [fst snd] in *. rewrite ?Eb in *.
  rewrite Hp in iv_file. injection iv_file as Hpq. symmetry in Hpq.
  exists (map fst d'). split; [apply esorted_sorted_names; auto|]. split; [intros n; rewrite <- iv_saved; apply in_assoc|].
  rewrite open_split by auto. unfold open_attrs, file_contents, fopen_r.
  rewrite (O (attr1_path base)) by apply attr1_not_attr2. rewrite iv_no1, Hp1. cbn [attrset_read_v1 bind].
  change (negb (0 =? 0)) with false. cbv iota.
  rewrite (O (header_path base)) by apply header_not_attr2. rewrite iv_hdr.
  unfold attrset_read_v2.
  destruct (read_cut (e_realloc e) (e_me e) d' ts' p q (set_dirty (set_dirty (attrset_create (e_malloc e)) false) false) [] (S (length p)))
    as [(Eu & Hlast)|(j & s' & m2 & Er & A & Hj & Hj' & C)]; auto.
  { apply as_ok_dirty, as_ok_dirty, create_ok. }
  { apply esorted_nodup; auto. }
  { cbn [set_dirty attrset_create as_bufused]. lia. }
  - left. rewrite Eu. auto.
  - right. rewrite Er. cbn [bind]. change (negb (0 =? 0)) with false. cbv iota. cbn [bind].
    rewrite (parse_table b0 sizes Lay) by (rewrite ?Edt, ?Enm; auto). cbn [bind].
    destruct (read_back_block base (set_dirty s' false) b0 sizes Lay (eq_sym Eb)) as (S1 & S2 & S3 & S4).
    eexists _, j. split; [reflexivity|]. split; [|split; [exact Hj|split; [rewrite map_length; exact Hj'|]]].
    + eapply same_table_trans; [|exact S1]. destruct iv_tab. constructor; congruence.
    + intros n. rewrite S3. rewrite <- iv_saved, <- assoc_firstn by (apply esorted_nodup; auto).
      assert (En : assoc n (firstn j d') = assoc n m2) by (rewrite C; destruct (assoc n (firstn j d')); reflexivity).
      change (attr_shows (set_dirty s' false) n (assoc n (firstn j d'))). rewrite En. apply (ok_shows (e_me e)). apply as_ok_dirty. exact A.
Qed.

(* ------------------------------------------------------- legacy files *)
Lemma take_app n a b : length a = n -> take n (a ++ b) = Some (a, b).
Proof.
  intros H. unfold take. rewrite app_length. replace (n <=? length a + length b)%nat with true by lia.
  rewrite firstn_app, skipn_app, H, Nat.sub_diag, <- H, firstn_all, skipn_all. cbn [firstn skipn]. rewrite app_nil_r. reflexivity.
Qed.

Lemma native_int_enc me z : 0 <= z < 2 ^ 31 -> native_int me (nat_enc me 4 z) = z.
Proof.
  intros H. unfold native_int, nat_val, nat_enc.
  assert (E : le_val (le_enc 4 z) = z) by (rewrite le_val_enc; apply Z.mod_small; change (256 ^ Z.of_nat 4) with (2 ^ 32); lia).
  destruct me; rewrite ?rev_involutive, E; apply s32_id; lia.
Qed.

Lemma until_nul_free t r : nul_free t -> until_nul (t ++ x00 :: r) = t /\ until_nul t = t.
Proof.
  unfold until_nul. induction t as [|c t IH]; intros H; [auto|].
  assert (Hc : Byte.eqb c x00 = false) by (apply byte_eqb_neq; intros ->; apply H; left; auto).
  cbn [app]. rewrite Hc. destruct IH as [-> ->]; auto. intros Hi. apply H. right. auto.
Qed.
Lemma until_nul_pad t n : nul_free t -> until_nul (t ++ repeat x00 n) = t.
Proof.
  intros H. destruct n as [|n]; cbn [repeat]; [rewrite app_nil_r; apply (until_nul_free t []); auto|]. apply until_nul_free. auto.
Qed.

Lemma read_v1_record ra me s m x r k : as_ok me s m -> legacy me x ->
  as_bufused s + (zlen (av_data (snd x)) + zlen (fst x) + 1) <= 2 ^ 61 ->
  exists s' m', read_v1_loop ra me s (v1_record me x ++ r) (S k) = read_v1_loop ra me s' r k /\ as_ok me s' m' /\
    as_bufused s' = as_bufused s + (zlen (av_data (snd x)) + zlen (fst x) + 1) /\
    (forall n, assoc n m' = if bytes_eqb n (fst x) then Some (mkAval (dtype_normalize me (av_dtype (snd x))) (av_nmemb (snd x)) (av_data (snd x))) else assoc n m).
Proof.
  intros H Hg Hsz. destruct Hg. destruct x as [name [d n v]]. cbn [fst snd av_dtype av_nmemb av_data] in *.
  unfold v1_record. cbn [av_dtype av_nmemb av_data].
  replace ((nat_enc me 4 n ++ nat_enc me 4 (zlen name) ++ d ++ repeat x00 (8 - length d) ++ name ++ v) ++ r)
    with (nat_enc me 4 n ++ nat_enc me 4 (zlen name) ++ (d ++ repeat x00 (8 - length d)) ++ name ++ v ++ r) by (rewrite <- !app_assoc; reflexivity).
  cbn [read_v1_loop].
  rewrite take_app by apply nat_enc_length. cbv iota zeta. rewrite take_app by apply nat_enc_length. cbv iota zeta.
  rewrite take_app by (rewrite app_length, repeat_length; lia). cbv iota zeta.
  rewrite until_nul_pad by auto. rewrite lg_type. cbn [negb].
  assert (Hn31 : n < 2 ^ 31) by nia.
  rewrite !native_int_enc by (pose proof (zlen_nonneg name); lia).
  pose proof (word_tok _ lg_name) as Htok. destruct (tok_no_blank _ Htok) as [Hb Hnul].
  assert (Hzn : 0 < zlen name). { destruct lg_name as [Hne _]. destruct name; [congruence|]. unfold zlen. simpl length. lia. }
  destruct ((itemsize me d * n <? 0) || (zlen name <? 0) || (2 ^ 31 <=? itemsize me d * n)) eqn:E; [nia|]. clear E.
  replace (zlen name =? 0) with false by lia. rewrite take_app by (unfold zlen; lia). cbv iota.
  replace (itemsize me d * n =? 0) with false by nia. rewrite take_app by (unfold zlen in *; lia). cbv iota.
  destruct (until_nul_free name [] Hnul) as [_ ->].
  destruct (set_spec ra me s m name (mem_of 0 v) 0 d n v) as (s' & um' & m' & Es & A & B & C & D & _); auto; try lia.
  { replace (Z.to_nat (n * itemsize me d)) with (length v) by (unfold zlen in *; lia). apply load_mem_of. }
  rewrite Es. cbn [bind]. change (negb (0 =? 0)) with false. cbv iota. exists s', m'. split; [reflexivity|]. split; [exact A|]. split; [lia|exact C].
Qed.

Lemma v1_record_pos me x : (0 < length (v1_record me x))%nat.
Proof. destruct x as [n v]. unfold v1_record. rewrite app_length, nat_enc_length. lia. Qed.

Lemma room_nonneg l : 0 <= room l.
Proof. unfold room, zsum. induction l as [|x l IH]; cbn [map fold_right]; [lia|]. pose proof (zlen_nonneg (av_data (snd x))). pose proof (zlen_nonneg (fst x)). lia. Qed.

Lemma read_v1_records ra me : forall es s m k, as_ok me s m -> Forall (legacy me) es ->
  as_bufused s + room es <= 2 ^ 61 -> (length es < k)%nat ->
  exists s' m', read_v1_loop ra me s (v1_file me es) k = Ret (0, s') /\ as_ok me s' m' /\
    as_bufused s' = as_bufused s + room es /\
    (forall n, assoc n m' = match last_of me es n with Some v => Some v | None => assoc n m end).
Proof.
  induction es as [|x es IH]; intros s m k H Hl Hsz Hk; (destruct k as [|k]; [simpl in Hk; lia|]).
  - exists s, m. split; [reflexivity|]. split; [exact H|]. split; [cbn; lia|]. auto.
  - inversion Hl; subst. pose proof (room_nonneg es). unfold room in Hsz |- *. cbn [map zsum fold_right] in Hsz |- *.
    change (fold_right Z.add 0 (map (fun x => zlen (av_data (snd x)) + zlen (fst x) + 1) es)) with (room es) in *.
    change (v1_file me (x :: es)) with (v1_record me x ++ v1_file me es).
    destruct (read_v1_record ra me s m x (v1_file me es) k) as (s1 & m1 & E & A & B & C); auto; [lia|]. rewrite E.
    destruct (IH s1 m1 k A) as (s2 & m2 & E2 & A2 & B2 & C2); auto; [lia|simpl in Hk; lia|].
    exists s2, m2. split; [exact E2|]. split; [exact A2|]. split; [lia|]. intros n. rewrite C2. destruct x as [nx vx]. cbn [last_of fst snd] in *.
    destruct (last_of me es n); auto. rewrite C. destruct (bytes_eqb n nx); auto.
Qed.

Lemma v2_file_text l : v2_file l = text_lines (map fst l) (map snd l).
Proof.
  unfold v2_file, text_lines. f_equal. induction l as [|[[n v] c] l IH]; [reflexivity|]. cbn [map combine]. rewrite IH. reflexivity.
Qed.

Lemma legacy_open e f b sizes c l1 (l2 : list (bytes * aval * bytes)) : has_layout b sizes -> block_name (b_base b) ->
  header_type (b_dtype b) -> 0 <= b_nmemb b < 2 ^ 31 -> zlen sizes <= 2 ^ 24 ->
  header_image b = Ret c -> fs_get f (header_path (b_base b)) = Some (File c) ->
  Forall (legacy (e_me e)) l1 -> fs_get f (attr1_path (b_base b)) = Some (File (v1_file (e_me e) l1)) ->
  Forall (fun x => durable (e_me e) (fst (fst x)) (snd (fst x)) /\ dt_ok (e_me e) (av_dtype (snd (fst x))) /\
     zlen (av_data (snd (fst x))) = av_nmemb (snd (fst x)) * itemsize (e_me e) (av_dtype (snd (fst x))) /\
     Forall (fun c => c <> x0a /\ c <> x00) (snd x)) l2 ->
  NoDup (map (fun x => fst (fst x)) l2) ->
  fs_get f (attr2_path (b_base b)) = Some (File (v2_file l2)) \/ (l2 = [] /\ fs_get f (attr2_path (b_base b)) = None) ->
  room l1 + room (map fst l2) <= 2 ^ 61 ->
  exists b2, big_block_open e f (b_base b) = Ret (Some b2) /\ same_table b b2 /\ has_layout b2 sizes /\
    forall n, attr_shows (b_attrset b2) n (match assoc n (map fst l2) with Some v => Some v | None => last_of (e_me e) l1 n end).
Proof.
  intros Lay Hn Ht Hnm HN Hh Hc H1 F1 H2 Hnd F2 Hsz.
  rewrite (header_image_text _ _ Lay) in Hh. injection Hh as <-.
  destruct (read_v1_records (e_realloc e) (e_me e) l1 (set_dirty (attrset_create (e_malloc e)) false) [] (S (length (v1_file (e_me e) l1)))) as (s1 & m1 & E1 & A1 & B1 & C1); auto.
  { apply as_ok_dirty, create_ok. }
  { cbn [set_dirty attrset_create as_bufused]. pose proof (room_nonneg (map fst l2)). lia. }
  { clear. unfold v1_file. induction l1 as [|x l IH]; [simpl; lia|]. cbn [map concat]. rewrite app_length. pose proof (v1_record_pos (e_me e) x). cbn [length]. lia. }
  cbn [set_dirty attrset_create as_bufused] in B1.
  assert (Hat : exists s2 m2, open_attrs e f (b_base b) = Ret (Some s2) /\ as_ok (e_me e) s2 m2 /\
    forall n, assoc n m2 = match assoc n (map fst l2) with Some v => Some v | None => last_of (e_me e) l1 n end).
  { unfold open_attrs, file_contents, fopen_r. rewrite F1. unfold attrset_read_v1. rewrite E1. cbn [bind]. change (negb (0 =? 0)) with false. cbv iota.
    assert (Hm : forall n, assoc n m1 = last_of (e_me e) l1 n) by (intros n; rewrite C1; destruct (last_of (e_me e) l1 n); reflexivity).
    destruct F2 as [F2|[-> F2]]; rewrite F2.
    - rewrite v2_file_text.
      destruct (read_v2_spec (e_realloc e) (e_me e) (set_dirty s1 false) m1 (map fst l2) (map snd l2)) as (s2 & m2 & E2 & A2 & _ & _ & C2).
      + apply as_ok_dirty; auto.
      + apply Forall_forall. intros x Hx. apply in_map_iff in Hx. destruct Hx as ([[n v] cm] & <- & Hx). rewrite Forall_forall in H2. apply H2 in Hx. apply durable_savable. apply Hx.
      + apply Forall_forall. intros x Hx. apply in_map_iff in Hx. destruct Hx as ([[n v] cm] & <- & Hx). rewrite Forall_forall in H2. apply H2 in Hx. split; apply Hx.
      + apply Forall_forall. intros x Hx. apply in_map_iff in Hx. destruct Hx as ([[n v] cm] & <- & Hx). rewrite Forall_forall in H2. apply H2 in Hx. apply Hx.
      + rewrite !map_length. auto.
      + rewrite map_map. exact Hnd.
      + cbn [set_dirty as_bufused]. rewrite B1. unfold room in Hsz. exact Hsz.
      + rewrite E2. cbn [bind]. exists s2, m2. split; [reflexivity|]. split; [exact A2|]. intros n. rewrite C2, Hm. reflexivity.
    - cbn [attrset_read_v2 bind]. eexists _, m1. split; [reflexivity|]. split; [apply as_ok_dirty, as_ok_dirty; auto|]. intros n. rewrite Hm. reflexivity. }
  destruct Hat as (s2 & m2 & Hat & A2 & C2).
  rewrite (open_by_header _ _ _ _ _ Hn Hat Hc), (parse_table b sizes Lay Ht Hnm HN). cbn [bind].
  destruct (read_back_block (b_base b) s2 b sizes Lay eq_refl) as (S1 & S2 & S3 & S4).
  eexists. split; [reflexivity|]. split; [auto|]. split; [auto|]. intros n. rewrite S3, <- C2. apply ok_shows with (me := e_me e). auto.
Qed.

(* ------------------------------------------------------- results *)
Lemma attrs_map ra me base os : Forall (aop_ok me) os -> zsum (map (aop_size me) os) <= 2 ^ 61 ->
  exists s, arun ra me (attrset_create base) os = Ret (fst (aspecs me no_attrs os), s) /\
    (forall name, attr_shows s name (snd (aspecs me no_attrs os) name)) /\
    exists names, attr_names s = Ret names /\ sorted_names names /\
      forall name, In name names <-> snd (aspecs me no_attrs os) name <> None.
Proof.
  intros Hok Hsz. destruct (run_spec ra me os (attrset_create base) [] no_attrs (create_ok me base)) as (s & m & E & A & C); auto.
  exists s. split; [exact E|]. split; [intros name; rewrite <- C; apply (ok_shows me); auto|].
  exists (map fst m). split; [eapply ok_names; eauto|]. split; [apply esorted_sorted_names; apply A|].
  intros name. rewrite <- C. apply in_assoc.
Qed.

Lemma attrs_move ra ra' me base os size : Forall (aop_ok me) os ->
  0 <= size -> zsum (map (aop_size me) os) + size <= 2 ^ 61 ->
  exists s s', arun ra me (attrset_create base) os = Ret (fst (aspecs me no_attrs os), s) /\
    grow_buf ra' s size 64 = Ret s' /\ as_bufused s' + size <= as_bufsize s' /\
    attr_names s' = attr_names s /\
    (forall name, attr_shows s name (snd (aspecs me no_attrs os) name) /\
                  attr_shows s' name (snd (aspecs me no_attrs os) name)).
Proof.
  intros Hok Hs Hsz.
  assert (Hrun : forall os s m M, as_ok me s m -> (forall k, assoc k m = M k) -> Forall (aop_ok me) os ->
    as_bufused s + zsum (map (aop_size me) os) <= 2 ^ 61 ->
    exists s' m', arun ra me s os = Ret (fst (aspecs me M os), s') /\ as_ok me s' m' /\
      (forall k, assoc k m' = snd (aspecs me M os) k) /\ as_bufused s' <= as_bufused s + zsum (map (aop_size me) os)).
  { clear. induction os as [|o os IH]; intros s m M H HM Hok Hsz; cbn [arun aspecs].
    - exists s, m. split; [reflexivity|]. split; [auto|]. split; [auto|]. cbn. lia.
    - inversion Hok as [|? ? Ho Hos]; subst. cbn [map zsum fold_right] in Hsz |- *.
      change (fold_right Z.add 0 (map (aop_size me) os)) with (zsum (map (aop_size me) os)) in *.
      assert (0 <= zsum (map (aop_size me) os)).
      { clear - Hos. unfold zsum. induction Hos as [|o l Ho Hl IHl]; cbn [map fold_right]; [lia|]. pose proof (aop_size_nonneg _ _ Ho). lia. }
      destruct (step_spec ra me s m M o H HM Ho) as (rc & s1 & m1 & E1 & H1 & Hrc & HM1 & Hs1); [lia|].
      rewrite E1. cbn [bind]. destruct (aspec me M o) as [rc' M1] eqn:Ea. cbn [fst snd] in *. subst rc'.
      destruct (IH s1 m1 M1 H1 HM1 Hos) as (s2 & m2 & E2 & A & C & B); [lia|]. rewrite E2. cbn [bind].
      destruct (aspecs me M1 os) as [rcs M2]. cbn [fst snd] in *. exists s2, m2. split; [auto|]. split; [auto|]. split; [auto|]. lia. }
  destruct (Hrun os (attrset_create base) [] no_attrs (create_ok me base)) as (s & m & E0 & A & C & B); auto; [cbn [attrset_create as_bufused]; lia|].
  cbn [attrset_create as_bufused] in B.
  destruct (grow_buf_spec ra' me m size Hs 63 s A) as (s' & E & A' & U & R & _); [lia|pose proof (ok_min _ _ _ A); lia|].
  exists s, s'. split; [exact E0|]. split; [exact E|]. split; [lia|]. split; [rewrite (ok_names _ _ _ A), (ok_names _ _ _ A'); auto|].
  intros name. rewrite <- C. split; apply (ok_shows me); auto.
Qed.

(* Reading a native attribute. *)
Lemma get_spec me s m name v um data dtype vs outs : as_ok me s m -> assoc name m = Some v ->
  dt_native me (av_dtype v) = true -> 0 < itemsize me dtype ->
  zlen vs = av_nmemb v -> Forall (fun x => length x = Z.to_nat (itemsize me (av_dtype v))) vs -> concat vs = av_data v ->
  (forall x, data <= x < data + av_nmemb v * itemsize me dtype -> um x <> None) ->
  convertible me (av_dtype v) (dtype_normalize me dtype) ->
  Forall2 (converts me (av_dtype v) (dtype_normalize me dtype)) vs outs ->
  exists um', attrset_get_attr me s name um data dtype (av_nmemb v) = Ret (0, s, um') /\
    load um' data (Z.to_nat (av_nmemb v * itemsize me dtype)) = Some (concat outs) /\
    (forall x, ~ (data <= x < data + av_nmemb v * itemsize me dtype) -> um' x = um x).
Proof.
  intros H Hv Hnat Hw Hl Hvs Hc Hm Hcv HF. unfold attrset_get_attr.
  destruct (lookup_spec _ _ _ name H) as [(i & a & v' & E1 & E2 & E & E3 & R & Ea)|(_ & _ & Ea)]; [|congruence].
  rewrite Ea in Hv. injection Hv as ->. rewrite E. cbn [bind]. destruct R. cbn [fst snd] in *.
  rewrite r_nmemb, Z.eqb_refl. cbn [negb]. pose proof r_dt as [Hnorm Hdw].
  destruct (simple_conv me um data dtype (as_mem s) (at_data a) (at_dtype a) (av_nmemb v) vs outs) as (dm' & sm' & Es & A & B & C & _); rewrite ?r_dtype; auto; try lia.
  - rewrite Hc. replace (Z.to_nat (av_nmemb v * itemsize me (av_dtype v))) with (length (av_data v)) by (unfold zlen in *; lia). auto.
  - rewrite Hnorm. auto.
  - rewrite Hnorm. auto.
  - rewrite r_dtype in Es, C. rewrite Es. cbn [bind]. rewrite Hnorm in C. rewrite (C Hnat). rewrite set_mem_same. exists dm'. auto.
Qed.

Lemma get_none me s m name um data dtype n : as_ok me s m ->
  match assoc name m with None => True | Some v => av_nmemb v <> n end ->
  attrset_get_attr me s name um data dtype n = Ret (-1, s, um).
Proof.
  intros H Hv. unfold attrset_get_attr.
  destruct (lookup_spec _ _ _ name H) as [(i & a & v' & E1 & E2 & E & E3 & R & Ea)|(_ & E & Ea)]; rewrite E; cbn [bind]; auto.
  rewrite Ea in Hv. destruct R. cbn [fst snd] in *. replace (at_nmemb a =? n) with false by lia. reflexivity.
Qed.

Lemma attrs_get ra me base os : Forall (aop_ok me) os -> zsum (map (aop_size me) os) <= 2 ^ 61 ->
  exists s, arun ra me (attrset_create base) os = Ret (fst (aspecs me no_attrs os), s) /\
    (forall name um data dtype n,
      match snd (aspecs me no_attrs os) name with None => True | Some v => av_nmemb v <> n end ->
      attrset_get_attr me s name um data dtype n = Ret (-1, s, um)) /\
    (forall name v um data dtype vs outs, snd (aspecs me no_attrs os) name = Some v ->
      dt_native me (av_dtype v) = true -> 0 < itemsize me dtype ->
      zlen vs = av_nmemb v -> Forall (fun x => length x = Z.to_nat (itemsize me (av_dtype v))) vs -> concat vs = av_data v ->
      (forall x, data <= x < data + av_nmemb v * itemsize me dtype -> um x <> None) ->
      convertible me (av_dtype v) (dtype_normalize me dtype) ->
      Forall2 (converts me (av_dtype v) (dtype_normalize me dtype)) vs outs ->
      exists um', attrset_get_attr me s name um data dtype (av_nmemb v) = Ret (0, s, um') /\
        load um' data (Z.to_nat (av_nmemb v * itemsize me dtype)) = Some (concat outs) /\
        (forall x, ~ (data <= x < data + av_nmemb v * itemsize me dtype) -> um' x = um x)).
Proof.
  intros Hok Hsz. destruct (run_spec ra me os (attrset_create base) [] no_attrs (create_ok me base)) as (s & m & E & A & C); auto.
  exists s. split; [exact E|]. split.
  - intros name um data dtype n H. rewrite <- C in H. eapply get_none; eauto.
  - intros name v um data dtype vs outs Hv. rewrite <- C in Hv. intros. eapply get_spec; eauto.
Qed.

Lemma attrs_blank ra me base os name um data dtype n : Forall (aop_ok me) os -> zsum (map (aop_size me) os) <= 2 ^ 61 ->
  has_blank name = true ->
  exists s, arun ra me (attrset_create base) os = Ret (fst (aspecs me no_attrs os), s) /\
    attrset_set_attr ra me s name um data dtype n = Ret (-1, set_dirty s true, um) /\
    attr_names (set_dirty s true) = attr_names s /\
    forall k, attr_shows (set_dirty s true) k (snd (aspecs me no_attrs os) k).
Proof.
  intros Hok Hsz Hb. destruct (run_spec ra me os (attrset_create base) [] no_attrs (create_ok me base)) as (s & m & E & A & C); auto.
  exists s. split; [exact E|]. split; [apply set_blank; auto|]. split.
  - rewrite (ok_names _ _ _ A). apply (ok_names me). apply as_ok_dirty. auto.
  - intros k. rewrite <- C. apply (ok_shows me). apply as_ok_dirty. auto.
Qed.

(* Sessions without removals. *)
Fixpoint sets_of (os : list sop) : list aop :=
  match os with
  | [] => []
  | SSet name um data dtype n :: r => ASet name um data dtype n :: sets_of r
  | _ :: r => sets_of r
  end.
Definition keeps (o : sop) : Prop := match o with SRemove _ => False | _ => True end.

Lemma sspecs_keep me : forall os a M, Forall keeps os -> (forall n, live a n = M n) -> (pending a = false -> forall n, saved a n = M n) ->
  forall n, live (snd (sspecs me a os)) n = snd (aspecs me M (sets_of os)) n.
Proof.
  induction os as [|o os IH]; intros a M Hk Hl Hs n; [auto|]. inversion Hk as [|? ? H1 H2]; subst.
  assert (Hsf : forall n, saved (sflush a) n = M n). { intros n'. unfold sflush. cbn [saved]. destruct (pending a); auto. }
  destruct o as [name um data dtype nn|name| |]; cbn [sspecs sets_of sspec] in *; [|contradiction| |].
  - cbn [aspecs aspec]. destruct (has_blank name).
    + specialize (IH (mkS (live a) (saved a) true) M H2 Hl ltac:(discriminate) n).
      destruct (sspecs me (mkS (live a) (saved a) true) os), (aspecs me M (sets_of os)). exact IH.
    + specialize (IH (mkS (with_attr (live a) name (Some (sval me um data dtype nn))) (saved a) true) (with_attr M name (Some (sval me um data dtype nn))) H2).
      destruct (sspecs me _ os), (aspecs me _ (sets_of os)). apply IH; [|discriminate].
      intros k. cbn [live]. unfold with_attr. destruct (bytes_eqb k name); auto.
  - specialize (IH (sflush a) M H2 Hl (fun _ => Hsf) n). destruct (sspecs me _ os). exact IH.
  - specialize (IH (mkS (saved (sflush a)) (saved (sflush a)) false) M H2 Hsf (fun _ => Hsf) n). destruct (sspecs me _ os). exact IH.
Qed.

Lemma sspecs_app me : forall os1 os2 a, snd (sspecs me a (os1 ++ os2)) = snd (sspecs me (snd (sspecs me a os1)) os2).
Proof.
  induction os1 as [|o os1 IH]; intros os2 a; [reflexivity|]. cbn [app sspecs]. destruct (sspec me a o) as [rc a1].
  specialize (IH os2 a1). destruct (sspecs me a1 (os1 ++ os2)), (sspecs me a1 os1). cbn [snd] in *. exact IH.
Qed.

Lemma session_keeps e f base d nmemb sizes os : g_clean e ->
  block_name base -> block_dir f base -> layout_ok sizes -> fs_get f (attr1_path base) = None ->
  header_type (dtype_normalize (e_me e) d) -> 0 <= nmemb < 2 ^ 31 -> zlen sizes <= 2 ^ 24 ->
  Forall (sop_ok (e_me e)) os -> zsum (map (sop_size (e_me e)) os) <= 2 ^ 61 -> Forall keeps os ->
  exists f0 b0 rcs f' b', big_block_create e f base (Some d) nmemb (zlen sizes) sizes = Ret (f0, Some b0) /\
    srun e (f0, b0) os = Ret (rcs, (f', b')) /\
    (forall name, attr_shows (b_attrset b') name (snd (aspecs (e_me e) no_attrs (sets_of os)) name)) /\ same_table b0 b'.
Proof.
  intros. destruct (sessions e f base d nmemb sizes os) as (f0 & b0 & f' & b' & E1 & E2 & S & _ & T & _); auto.
  exists f0, b0, (fst (sspecs (e_me e) sstart os)), f', b'. split; [auto|]. split; [auto|]. split; [|auto].
  intros name. rewrite <- (sspecs_keep (e_me e) os sstart no_attrs); auto.
Qed.

Lemma session_removed e f base d nmemb sizes os name other um data dtype n : g_clean e ->
  block_name base -> block_dir f base -> layout_ok sizes -> fs_get f (attr1_path base) = None ->
  header_type (dtype_normalize (e_me e) d) -> 0 <= nmemb < 2 ^ 31 -> zlen sizes <= 2 ^ 24 ->
  let ops := os ++ [SRemove name; SSet other um data dtype n; SReopen] in
  Forall (sop_ok (e_me e)) ops -> zsum (map (sop_size (e_me e)) ops) <= 2 ^ 61 -> other <> name ->
  exists f0 b0 rcs f' b', big_block_create e f base (Some d) nmemb (zlen sizes) sizes = Ret (f0, Some b0) /\
    srun e (f0, b0) ops = Ret (rcs, (f', b')) /\ attr_shows (b_attrset b') name None.
Proof.
  intros Hg Hn Hd Hl Ha Ht Hnm HN ops Hok Hsz Hne.
  destruct (sessions e f base d nmemb sizes ops) as (f0 & b0 & f' & b' & E1 & E2 & S & _ & T & _); auto.
  exists f0, b0, (fst (sspecs (e_me e) sstart ops)), f', b'. split; [auto|]. split; [auto|].
  specialize (S name). replace (live (snd (sspecs (e_me e) sstart ops)) name) with (@None aval) in S; auto.
  unfold ops. rewrite sspecs_app. set (a := snd (sspecs (e_me e) sstart os)). cbn [sspecs sspec].
  apply bytes_eqb_neq in Hne. rewrite bytes_eqb_sym in Hne.
  destruct (live a name) eqn:El; destruct (has_blank other); cbn [snd sflush live saved pending]; unfold with_attr; rewrite ?Hne, ?bytes_eqb_refl; auto.
Qed.
