(* Proofs about b.attrs. *)
From Coq.Strings Require Import Byte String.
From Coq Require Import List ZArith Lia Bool ZifyBool ZifyNat Sorted Permutation.
From Verif Require Import Base BaseFacts Dtype Cast Array FS Fmt Attr Block Spec AttrSpec OpenSpec SessSpec Py PySpec PyAttr PyAttrSpec
  DtypeFacts AttrFacts TextFacts OpenFacts AttrFileFacts SessFacts StepFacts PyNewFacts.
Import ListNotations.
Open Scope Z_scope.
Local Open Scope out_scope.

(* ------------------------------------------------ numpy's string arrays *)
Lemma digits_short k : forall fuel z, 0 <= z < 10 ^ Z.of_nat k -> (0 < k)%nat -> (length (digits_lsf 10 digit fuel z) <= k)%nat.
Proof.
  induction k as [|k IH]; intros fuel z Hz Hk; [lia|]. destruct fuel as [|fuel]; cbn [digits_lsf length]; [lia|].
  destruct (z / 10 =? 0) eqn:E; cbn [length]; [lia|]. destruct k as [|k].
  - change (10 ^ Z.of_nat 1) with 10 in Hz. rewrite Z.div_small in E by lia. discriminate.
  - specialize (IH fuel (z / 10)). assert (Hp : 10 ^ Z.of_nat (S (S k)) = 10 * 10 ^ Z.of_nat (S k)) by (rewrite <- Z.pow_succ_r by lia; f_equal; lia).
    assert (0 <= z / 10 < 10 ^ Z.of_nat (S k)) by (split; [apply Z.div_pos; lia|apply Z.div_lt_upper_bound; lia]). specialize (IH H). lia.
Qed.
Lemma print_short z : 0 <= z < 100000 -> (length (print_signed z) <= 5)%nat.
Proof.
  intros Hz. unfold print_signed. destruct (Z.ltb_spec z 0); [lia|]. unfold print_unsigned. rewrite rev_length. apply digits_short; [|lia].
  change (10 ^ Z.of_nat 5) with 100000. lia.
Qed.
Lemma strs_type me w : 0 <= w < 100000 ->
  dtype_normalize me (lit "|S" ++ print_signed w) = machine_char me :: "S"%byte :: print_signed w /\ itemsize me (lit "|S" ++ print_signed w) = w.
Proof.
  intros Hw. assert (E : dtype_normalize me (lit "|S" ++ print_signed w) = machine_char me :: "S"%byte :: print_signed w).
  { change (lit "|S" ++ print_signed w) with ("|"%byte :: "S"%byte :: print_signed w).
    assert (F : firstn 7 ("|"%byte :: "S"%byte :: print_signed w) = "|"%byte :: "S"%byte :: print_signed w)
      by (apply firstn_all2; cbn [length]; pose proof (print_short w Hw); lia).
    unfold dtype_normalize. rewrite F. reflexivity. }
  split; [exact E|]. unfold itemsize. rewrite E. cbn [skipn]. apply atoi_print. lia.
Qed.
Lemma longest_ge l s : In s l -> zlen s <= longest l.
Proof. induction l as [|x l IH]; intros H; [contradiction|]. cbn [longest fold_right]. fold (longest l). destruct H as [->|H]; [lia|]. specialize (IH H). lia. Qed.
Lemma longest_lt l B : 0 < B -> Forall (fun s : bytes => zlen s < B) l -> longest l < B.
Proof. intros HB. induction 1 as [|x l Hx _ IH]; cbn [longest fold_right]; [lia|]. fold (longest l). lia. Qed.
Lemma longest_pos l : l <> [] -> Forall (fun s : bytes => s <> []) l -> 0 < longest l.
Proof.
  intros Hl HF. destruct l as [|x l]; [congruence|]. inversion HF as [|? ? Hx _]; subst. cbn [longest fold_right]. destruct x as [|c x]; [congruence|].
  rewrite zlen_cons. pose proof (zlen_nonneg x). lia.
Qed.
Lemma pad_length w s : zlen s <= w -> zlen (pad w s) = w.
Proof. intros H. unfold pad. rewrite zlen_app. unfold zlen at 2. rewrite repeat_length. pose proof (zlen_nonneg s). lia. Qed.
Lemma drop_nul_repeat k l : drop_nul (repeat x00 k ++ l) = drop_nul l.
Proof. induction k as [|k IH]; cbn [repeat app drop_nul]; [reflexivity|]. change (Byte.eqb x00 x00) with true. exact IH. Qed.
Lemma strip_pad w s : last s x01 <> x00 -> strip_nul (pad w s) = s.
Proof.
  intros Hl. unfold strip_nul, pad. rewrite rev_app_distr. assert (Er : forall k, rev (repeat x00 k) = repeat x00 k).
  { clear. induction k as [|k IH]; [reflexivity|]. cbn [repeat rev]. rewrite IH. clear. induction k as [|k IH]; [reflexivity|]. cbn [repeat app]. rewrite IH. reflexivity. }
  rewrite Er, drop_nul_repeat. destruct s as [|c s] using rev_ind; [reflexivity|]. rewrite rev_app_distr. cbn [rev app drop_nul].
  rewrite last_last in Hl. destruct (Byte.eqb c x00) eqn:E; [apply byte_eqb_eq in E; congruence|]. cbn [rev]. rewrite rev_involutive. reflexivity.
Qed.
Lemma group_rows {A} k : forall l : list (list A), Forall (fun v => length v = k) l -> group k (length l) (concat l) = l.
Proof.
  induction 1 as [|x l Hx _ IH]; [reflexivity|]. cbn [length group concat]. rewrite <- Hx at 1 3. rewrite firstn_app, firstn_all, Nat.sub_diag, firstn_O, app_nil_r.
  rewrite skipn_app, skipn_all, Nat.sub_diag. cbn [skipn app]. rewrite IH. reflexivity.
Qed.
Lemma concat_pads w l : Forall (fun s => zlen s <= w) l -> zlen (concat (map (pad w) l)) = zlen l * w.
Proof. induction 1 as [|x l Hx _ IH]; cbn [map concat]; [reflexivity|]. rewrite zlen_app, zlen_cons, IH, pad_length by exact Hx. lia. Qed.

(* ------------------------------------------------ values *)
Definition stored (me : endian) (v : pyval) : aval :=
  match attr_buffer v with
  | Some (d, n, data) => mkAval (dtype_normalize me d) n data
  | None => mkAval [] 0 []
  end.
Definition shown (me : endian) (v : aval) : pyread :=
  let k := nth 1 (av_dtype v) x00 in
  if Byte.eqb k "S" then RStrs (map strip_nul (group (Z.to_nat (itemsize me (av_dtype v))) (Z.to_nat (av_nmemb v)) (av_data v)))
  else if Byte.eqb k "a" then RStr (av_data v)
  else RArr (av_dtype v) (av_nmemb v) (av_data v).

Lemma word_lits me : word (machine_char me :: lit "a1").
Proof. split; [discriminate|]. destruct me; repeat constructor; discriminate. Qed.
Lemma native_cons me t : dt_native me (machine_char me :: t) = true.
Proof. destruct me; reflexivity. Qed.
Lemma byte_eqb_neq (a b : byte) : a <> b -> Byte.eqb a b = false.
Proof. intros H. destruct (Byte.eqb a b) eqn:E; [apply byte_eqb_eq in E; congruence|reflexivity]. Qed.

Lemma strs_facts l : l <> [] -> Forall (fun s => s <> [] /\ last s x01 <> x00 /\ zlen s < 100000) l ->
  0 < longest l < 100000 /\ zlen (concat (map (pad (longest l)) l)) = zlen l * longest l /\ 0 < zlen l /\
  Forall (fun v => length v = Z.to_nat (longest l)) (map (pad (longest l)) l) /\ map strip_nul (map (pad (longest l)) l) = l.
Proof.
  intros Hl HF. assert (Hp : 0 < longest l) by (apply longest_pos; [exact Hl|]; eapply Forall_impl; [|exact HF]; cbn; tauto).
  assert (Hle : Forall (fun s => zlen s <= longest l) l) by (apply Forall_forall; intros s Hs; apply longest_ge; exact Hs).
  split; [split; [exact Hp|apply longest_lt; [lia|]; eapply Forall_impl; [|exact HF]; cbn; tauto]|].
  split; [apply concat_pads; exact Hle|]. split; [destruct l as [|x l']; [congruence|rewrite zlen_cons; pose proof (zlen_nonneg l'); lia]|].
  split.
  - apply Forall_forall. intros v Hv. apply in_map_iff in Hv. destruct Hv as (s & <- & Hs). rewrite Forall_forall in Hle. pose proof (pad_length _ _ (Hle s Hs)) as Hx.
    unfold zlen in Hx. lia.
  - rewrite map_map. rewrite <- (map_id l) at 2. apply map_ext_in. intros s Hs. apply strip_pad. rewrite Forall_forall in HF. apply HF. exact Hs.
Qed.

Lemma val_facts me v : pyval_ok me v -> v <> VObj ->
  exists d n data, attr_buffer v = Some (d, n, data) /\ 0 < itemsize me d /\ 0 < n < 2 ^ 31 /\ zlen data = n * itemsize me d /\ zlen data < 2 ^ 30 /\
    word (dtype_normalize me d) /\ dt_native me (dtype_normalize me d) = true /\ shown me (mkAval (dtype_normalize me d) n data) = as_read me v.
Proof.
  intros H Hv. destruct v as [s|l|d n data|]; cbn [attr_buffer pyval_ok] in *; [| | |congruence].
  - destruct H as [Hs H30]. exists (lit "a1"), (zlen s), s. split; [reflexivity|].
    assert (E : dtype_normalize me (lit "a1") = machine_char me :: lit "a1") by (destruct me; reflexivity).
    assert (Ei : itemsize me (lit "a1") = 1) by (destruct me; reflexivity). rewrite E, Ei.
    assert (0 < zlen s) by (destruct s as [|x s']; [congruence|rewrite zlen_cons; pose proof (zlen_nonneg s'); lia]).
    split; [lia|]. split; [lia|]. split; [lia|]. split; [lia|]. split; [apply word_lits|]. split; [apply native_cons|]. reflexivity.
  - destruct H as (Hl & HF & Hs). destruct (strs_facts l Hl HF) as (Hw & Hz & Hn & HG & Hst). destruct (strs_type me (longest l)) as [E Ei]; [lia|].
    eexists _, _, _. split; [reflexivity|]. rewrite E, Ei. split; [lia|]. split; [nia|]. split; [exact Hz|]. split; [lia|].
    split; [|split; [apply native_cons|]].
    + split; [discriminate|]. constructor; [destruct me; repeat split; discriminate|]. constructor; [repeat split; discriminate|].
      assert (T : tok (print_signed (longest l))) by (apply print_signed_tok; lia). destruct T as [_ T]. eapply Forall_impl; [|exact T].
      intros c Hc. cbn beta in Hc. repeat split; intros ->; cbn in Hc; intuition discriminate.
    + unfold shown. cbn [av_dtype av_nmemb av_data nth]. change (Byte.eqb "S" "S") with true. cbn [as_read]. f_equal.
      replace (itemsize me (machine_char me :: "S"%byte :: print_signed (longest l))) with (longest l).
      2: { rewrite <- E. rewrite normalize_itemsize_pos; [symmetry; exact Ei|lia]. }
      replace (Z.to_nat (zlen l)) with (length (map (pad (longest l)) l)) by (rewrite map_length; unfold zlen; lia). rewrite group_rows by exact HG. exact Hst.
  - destruct H as (Hw & Hn & Hz & H30 & Hwd & Hna & HS & Ha). exists d, n, data. split; [reflexivity|].
    do 6 (split; [assumption|]). unfold shown. cbn [av_dtype av_nmemb av_data as_read]. unfold dtype_kind in HS, Ha.
    replace (nth 1 (dtype_normalize me d) x00) with (match dtype_normalize me d with _ :: k :: _ => k | _ => x00 end) by (destruct (dtype_normalize me d) as [|? [|? ?]]; reflexivity).
    rewrite (byte_eqb_neq _ _ HS), (byte_eqb_neq _ _ Ha). reflexivity.
Qed.

(* ------------------------------------------------ the states agree *)
Record drel (me : endian) (s : dstate) (a : sstate) : Prop := {
  dr_now : forall n, live a n = option_map (stored me) (now s n);
  dr_disk : forall n, saved a n = option_map (stored me) (disk s n);
  dr_due : pending a = due s;
  dr_vnow : forall n v, now s n = Some v -> pyval_ok me v /\ v <> VObj;
  dr_vdisk : forall n v, disk s n = Some v -> pyval_ok me v /\ v <> VObj
}.
Lemma start_rel me : drel me dstart sstart.
Proof. constructor; try reflexivity; discriminate. Qed.
Lemma flush_rel me s a : drel me s a -> drel me (dflush s) (sflush a).
Proof.
  intros []. unfold dflush, sflush. rewrite dr_due0. destruct (due s) eqn:E; constructor; cbn [now disk due live saved pending]; auto.
Qed.

Lemma strcmp_names_sorted l : sorted_names l -> sort_names l = l.
Proof.
  induction l as [|x l IH]; intros H; [reflexivity|]. cbn [sort_names]. destruct H as [Hx Hl]. rewrite (IH Hl). destruct l as [|y l]; [reflexivity|]. cbn [ins_name]. rewrite Hx. reflexivity.
Qed.
Lemma set_attrs_same b : set_attrs b (b_attrset b) = b.
Proof. destruct b. reflexivity. Qed.

Section Run.
  Variables (e : env) (b0 : block) (sizes : list Z).
  Hypothesis Hg : g_clean e.
  Hypothesis Hlay0 : has_layout b0 sizes.
  Hypothesis Hty : header_type (b_dtype b0).
  Hypothesis Hnm : 0 <= b_nmemb b0 < 2 ^ 31.
  Hypothesis HN : zlen sizes <= 2 ^ 24.
  Hypothesis Hbn : block_name (b_base b0).
  Variable alloc : Z -> Z * mem.
  Hypothesis Hal : alloc_ok alloc.
  Notation me := (e_me e).

  Lemma name_word name : name_ok name -> has_blank name = false -> word name.
  Proof.
    intros [Hne Hnul] Hb. split; [exact Hne|]. apply Forall_forall. intros c Hc. unfold has_blank in Hb.
    assert (Hx : forall c', In c' name -> (Byte.eqb c' " " || Byte.eqb c' x09 || Byte.eqb c' x0a) = false).
    { intros c' Hc'. destruct (Byte.eqb c' " " || Byte.eqb c' x09 || Byte.eqb c' x0a) eqn:E; [|reflexivity].
      assert (existsb (fun c => Byte.eqb c " " || Byte.eqb c x09 || Byte.eqb c x0a) name = true) by (apply existsb_exists; exists c'; auto). congruence. }
    specialize (Hx c Hc). repeat split; intros ->; try discriminate Hx. apply Hnul. exact Hc.
  Qed.

  (* reading leaves the set as it was *)
  Lemma get_shown m b name v : as_ok me (b_attrset b) m -> assoc name m = Some v -> dt_native me (av_dtype v) = true ->
    py_attr_get e alloc b name = Ret (PyRet (shown me v), b).
  Proof.
    intros Hok Ha Hna. unfold py_attr_get.
    destruct (lookup_spec _ _ _ name Hok) as [(i & a & v' & E1 & E2 & E & E3 & R & Ea)|(_ & _ & Ea)]; [|congruence].
    rewrite E. cbn [bind]. rewrite Ea in Ha. injection Ha as ->. destruct v as [dt n data]. pose proof (r_dtype _ _ _ _ R) as Rd. pose proof (r_nmemb _ _ _ _ R) as Rn. pose proof (r_dt _ _ _ _ R) as [Rno Rw].
    pose proof (r_len _ _ _ _ R) as Hz. pose proof (r_n0 _ _ _ _ R) as Hn0. cbn [fst snd av_dtype av_nmemb av_data] in *. rewrite Rd, Rn. set (w := itemsize me dt) in *.
    pose proof (Hal (n * w)) as Hmap. destruct (alloc (n * w)) as [p mm]. cbn [fst snd] in Hmap.
    set (vs := group (Z.to_nat w) (Z.to_nat n) data). assert (Hlen : length data = (Z.to_nat w * Z.to_nat n)%nat) by (unfold zlen in Hz; nia).
    assert (Hcc : concat vs = data) by (apply concat_group; lia).
    assert (Hlv : zlen vs = n) by (unfold zlen, vs; rewrite group_length; lia).
    destruct (get_spec me (b_attrset b) m name (mkAval dt n data) mm p dt vs vs) as (um' & Eg & Lg & _); try exact Hok; cbn [av_dtype av_nmemb av_data]; try assumption; try lia.
    - apply group_widths. exact Hlen.
    - intros x Hx. fold w in Hx. replace x with (p + (x - p)) by lia. apply Hmap. lia.
    - rewrite Rno. left. reflexivity.
    - rewrite Rno. apply converts_selfs.
    - cbn [av_nmemb] in Eg, Lg. rewrite Eg. cbn [bind]. change (negb (0 =? 0)) with false. cbv iota. fold w in Lg. rewrite Lg. cbn [or_ub bind].
      rewrite set_attrs_same. unfold shown. cbn [av_dtype av_nmemb av_data]. fold w. rewrite Hcc. reflexivity.
  Qed.
  Lemma get_step m b name v : as_ok me (b_attrset b) m -> assoc name m = Some (stored me v) -> pyval_ok me v -> v <> VObj ->
    py_attr_get e alloc b name = Ret (PyRet (as_read me v), b).
  Proof.
    intros Hok Ha Hv Hvo. destruct (val_facts me v Hv Hvo) as (d & n & data & Eb & Hw & Hn & Hz & H30 & Hwd & Hna & Hsh).
    unfold stored in Ha. rewrite Eb in Ha. rewrite (get_shown m b name _ Hok Ha Hna). rewrite Hsh. reflexivity.
  Qed.

  Lemma attr_step B st a m d ts s o : sinv e b0 sizes B st a m d ts -> drel me s a -> dop_ok me o -> B + dop_size o <= 2 ^ 61 ->
    exists x st' a' m' d' ts', py_attr_step e alloc st o = Ret (x, st') /\ dict_says me (now s) o x /\ drel me (dnext s o) a' /\
      sinv e b0 sizes (B + dop_size o) st' a' m' d' ts'.
  Proof.
    intros I R Ho HB. destruct st as [f b]. pose proof (iv_ok _ _ _ _ _ _ _ _ _ I) as Hok. pose proof (iv_live _ _ _ _ _ _ _ _ _ I) as Hlv. cbn [snd] in Hok.
    assert (Hlook : forall name, match now s name with
        | Some v => exists at_, attrset_lookup_attr (b_attrset b) name = Ret (Some at_)
        | None => attrset_lookup_attr (b_attrset b) name = Ret None end).
    { intros name. pose proof (Hlv name) as Hx. rewrite (dr_now _ _ _ R) in Hx.
      destruct (lookup_spec _ _ _ name Hok) as [(i & at_ & v' & E1 & E2 & E & E3 & Rp & Ea)|(_ & E & Ea)]; rewrite Ea in Hx; destruct (now s name); try discriminate; eauto. }
    destruct o as [name v|name|name|name| | |]; cbn [py_attr_step dop_ok dict_says] in *.
    - destruct Ho as [Hn Hv]. destruct (match v with VObj => true | _ => false end) eqn:Eo.
      { destruct v; try discriminate. cbn [py_attr_set attr_buffer bind answer dop_size]. rewrite Z.add_0_r. exists (ARaise ValueError), (f, b), a, m, d, ts. auto. }
      assert (Hvo : v <> VObj) by (intros ->; discriminate). destruct (val_facts me v Hv Hvo) as (dt & n & data & Eb & Hw & Hnn & Hz & H30 & Hwd & Hna & Hsh).
      unfold py_attr_set. cbn [dop_size] in *. rewrite Eb in *. destruct (alloc (zlen data)) as [p mm].
      fold (copied p mm data). set (um := copied p mm data).
      assert (Hld : load um p (Z.to_nat (n * itemsize me dt)) = Some data).
      { replace (Z.to_nat (n * itemsize me dt)) with (length data) by (unfold zlen in Hz; lia). apply (load_copied e dt n alloc). }
      assert (Esv : sval me um p dt n = stored me v) by (unfold sval, stored; rewrite Hld, Eb; reflexivity).
      assert (Esz : sop_size me (SSet name um p dt n) = zlen data + zlen name + 1) by (cbn [sop_size aop_size]; lia).
      destruct (sess_step e b0 sizes Hg Hlay0 Hty Hnm HN Hbn B (f, b) a m d ts (SSet name um p dt n) I) as (st' & m' & d' & ts' & E & I').
      { split; [split; [apply Hn|]; split; [exact Hw|]; split; [lia|]; split; [lia|]; exists data; exact Hld|].
        intros Hb. rewrite Esv. unfold stored. rewrite Eb. constructor; cbn [av_dtype av_nmemb av_data]; auto. apply name_word; auto. }
      { lia. } { rewrite Esz. pose proof (zlen_nonneg data). pose proof (zlen_nonneg name). lia. }
      rewrite Esz in I'. cbn [sstep sspec fst snd] in E, I'. rewrite Esv in *.
      destruct (attrset_set_attr (e_realloc e) me (b_attrset b) name um p dt n) as [[[rc s'] um']| |]; cbn [bind] in E |- *; try discriminate.
      injection E as Erc <-. destruct (has_blank name) eqn:Ehb; cbn [fst snd] in Erc, I'; subst rc.
      + eexists (ARaise BigError), _, _, m', d', ts'. split; [reflexivity|]. split; [destruct v; try discriminate; reflexivity|]. split; [|exact I'].
        destruct R. destruct v; try discriminate; cbn [dnext]; rewrite Ehb; constructor; cbn [now disk due live saved pending]; auto.
      + eexists ADone, _, _, m', d', ts'. split; [reflexivity|]. split; [destruct v; try discriminate; reflexivity|]. split; [|exact I'].
        assert (En : dnext s (DSet name v) = mkD (put (now s) name (Some v)) (disk s) true) by (destruct v; try discriminate; cbn [dnext]; rewrite Ehb; reflexivity).
        rewrite En. destruct R. constructor; cbn [now disk due live saved pending]; auto.
        * intros k. unfold with_attr, put. destruct (bytes_eqb k name); [reflexivity|auto].
        * intros k u. unfold put. destruct (bytes_eqb k name); [intros Hu; injection Hu as <-; auto|apply dr_vnow0].
    - destruct (sess_step e b0 sizes Hg Hlay0 Hty Hnm HN Hbn B (f, b) a m d ts (SRemove name) I) as (st' & m' & d' & ts' & E & I').
      { cbn [sop_ok]. apply Ho. } { cbn [sop_size dop_size] in *; lia. } { cbn [sop_size]; lia. }
      unfold py_attr_del. cbn [dop_size sop_size] in *. pose proof (Hlook name) as Hl. cbn [sstep sspec] in E, I'. rewrite (dr_now _ _ _ R) in E, I'.
      destruct (now s name) as [v|] eqn:En; cbn [option_map] in E, I'.
      + destruct Hl as [at_ Hl]. rewrite Hl. cbn [bind]. destruct (attrset_remove_attr (b_attrset b) name) as [[rc s']| |]; cbn [bind fst snd] in E, I' |- *; try discriminate.
        injection E as _ <-. eexists ADone, _, _, m', d', ts'. split; [reflexivity|]. split; [reflexivity|]. split; [|exact I'].
        destruct R. constructor; cbn [dnext now disk due live saved pending]; auto.
        * intros k. unfold with_attr, put. destruct (bytes_eqb k name); [reflexivity|auto].
        * intros k u. unfold put. destruct (bytes_eqb k name); [discriminate|apply dr_vnow0].
      + rewrite Hl. cbn [bind answer]. rewrite Z.add_0_r. exists (ARaise KeyError), (f, b), a, m, d, ts. split; [reflexivity|]. split; [reflexivity|]. split; [|exact I].
        destruct R. constructor; cbn [dnext now disk due live saved pending]; auto.
        * intros k. unfold put. destruct (bytes_eqb k name) eqn:Ek; [|auto]. apply bytes_eqb_eq in Ek. subst k. rewrite dr_now0, En. reflexivity.
        * intros k u. unfold put. destruct (bytes_eqb k name); [discriminate|apply dr_vnow0].
    - cbn [dop_size dnext] in *. rewrite Z.add_0_r. destruct (now s name) as [v|] eqn:En.
      + destruct (dr_vnow _ _ _ R _ _ En) as [Hv Hvo]. rewrite (get_step m b name v Hok); auto.
        2: { rewrite Hlv, (dr_now _ _ _ R), En. reflexivity. }
        cbn [bind answer]. exists (AShow (as_read me v)), (f, b), a, m, d, ts. auto.
      + pose proof (Hlook name) as Hl. rewrite En in Hl. unfold py_attr_get. rewrite Hl. cbn [bind answer]. exists (ARaise KeyError), (f, b), a, m, d, ts. auto.
    - cbn [dop_size dnext] in *. rewrite Z.add_0_r. pose proof (Hlook name) as Hl. unfold py_attr_in.
      destruct (now s name) as [v|]; [destruct Hl as [at_ Hl]|]; rewrite Hl; cbn [bind]; eexists _, (f, b), a, m, d, ts; auto.
    - cbn [dop_size dnext] in *. rewrite Z.add_0_r. unfold py_attr_keys. rewrite (ok_names _ _ _ Hok). cbn [bind].
      assert (Hs : sorted_names (map fst m)) by (apply esorted_sorted_names; apply Hok). rewrite strcmp_names_sorted by exact Hs.
      exists (AKeys (map fst m)), (f, b), a, m, d, ts. split; [reflexivity|]. split; [|auto]. exists (map fst m). split; [reflexivity|]. split; [exact Hs|].
      intros n. pose proof (assoc_none n m) as Hx. rewrite Hlv, (dr_now _ _ _ R) in Hx. destruct (now s n) as [v|]; cbn [option_map] in Hx.
      + split; [discriminate|]. intros _. destruct (in_dec (list_eq_dec Byte.byte_eq_dec) n (map fst m)) as [Hi|Hi]; [exact Hi|]. apply Hx in Hi. discriminate.
      + split; [intros Hi; exfalso; apply (proj2 Hx); auto|congruence].
    - destruct (sess_step e b0 sizes Hg Hlay0 Hty Hnm HN Hbn B (f, b) a m d ts SFlush I) as (st' & m' & d' & ts' & E & I'); [exact Logic.I|cbn [sop_size dop_size] in *; lia|cbn [sop_size]; lia|].
      rewrite E. cbn [bind sspec fst snd sop_size dop_size dnext] in *. change (0 =? 0) with true. cbv iota. eexists ADone, st', _, m', d', ts'. split; [reflexivity|]. split; [reflexivity|]. split; [|exact I'].
      apply flush_rel. exact R.
    - destruct (sess_step e b0 sizes Hg Hlay0 Hty Hnm HN Hbn B (f, b) a m d ts SReopen I) as (st' & m' & d' & ts' & E & I'); [exact Logic.I|cbn [sop_size dop_size] in *; lia|cbn [sop_size]; lia|].
      rewrite E. cbn [bind sspec fst snd sop_size dop_size dnext] in *. change (0 =? 0) with true. cbv iota. eexists ADone, st', _, m', d', ts'. split; [reflexivity|]. split; [reflexivity|]. split; [|exact I'].
      pose proof (flush_rel _ _ _ R) as []. constructor; cbn [now disk due live saved pending]; auto.
  Qed.

  Lemma dop_size_nonneg o : 0 <= dop_size o.
  Proof. destruct o as [name v|?|?|?| | |]; cbn [dop_size]; try lia. destruct (attr_buffer v) as [[[? ?] data]|]; [|lia]. pose proof (zlen_nonneg data). pose proof (zlen_nonneg name). lia. Qed.

  Lemma attr_run : forall os B st a m d ts s, sinv e b0 sizes B st a m d ts -> drel me s a -> Forall (dop_ok me) os ->
    B + zsum (map dop_size os) <= 2 ^ 61 ->
    exists xs st' a' m' d' ts' B', py_attr_run e alloc st os = Ret (xs, st') /\ dict_says_all me s os xs /\ drel me (dfinal s os) a' /\
      sinv e b0 sizes B' st' a' m' d' ts'.
  Proof.
    induction os as [|o os IH]; intros B st a m d ts s I R Ho HB.
    - exists [], st, a, m, d, ts, B. cbn. auto.
    - inversion Ho as [|? ? Ho1 Ho2]; subst. cbn [map] in HB. change (zsum (dop_size o :: map dop_size os)) with (dop_size o + zsum (map dop_size os)) in HB.
      assert (Hp : 0 <= zsum (map dop_size os)).
      { clear. induction os as [|o os IH]; cbn [map]; [cbn; lia|]. change (zsum (dop_size o :: map dop_size os)) with (dop_size o + zsum (map dop_size os)). pose proof (dop_size_nonneg o). lia. }
      destruct (attr_step B st a m d ts s o I R Ho1) as (x & st1 & a1 & m1 & d1 & ts1 & E1 & S1 & R1 & I1); [lia|].
      destruct (IH _ st1 a1 m1 d1 ts1 _ I1 R1 Ho2) as (xs & st2 & a2 & m2 & d2 & ts2 & B2 & E2 & S2 & R2 & I2); [lia|].
      exists (x :: xs), st2, a2, m2, d2, ts2, B2. cbn [py_attr_run]. rewrite E1. cbn [bind]. rewrite E2. cbn [bind]. split; [reflexivity|]. split; [split; assumption|]. split; [exact R2|exact I2].
  Qed.
End Run.

Theorem attrs_dict e f base d nmemb sizes os alloc : g_clean e -> alloc_ok alloc ->
  block_name base -> block_dir f base -> layout_ok sizes -> fs_get f (attr1_path base) = None ->
  header_type (dtype_normalize (e_me e) d) -> 0 <= nmemb < 2 ^ 31 -> zlen sizes <= 2 ^ 24 ->
  Forall (dop_ok (e_me e)) os -> zsum (map dop_size os) <= 2 ^ 61 ->
  exists f0 b0 xs f' b', big_block_create e f base (Some d) nmemb (zlen sizes) sizes = Ret (f0, Some b0) /\
    py_attr_run e alloc (f0, b0) os = Ret (xs, (f', b')) /\ dict_says_all (e_me e) dstart os xs /\
    same_table b0 b' /\ has_layout b' sizes.
Proof.
  intros Hg Hal Hn Hd Hl Ha Ht Hnm HN Hos Hsz.
  destruct (sess_create e f base d nmemb sizes Hn Hd Hl Ha) as (f0 & b0 & E & Lay & Edt & Enm & Eb & I).
  destruct (attr_run e b0 sizes Hg Lay) with (alloc := alloc) (os := os) (B := 0) (st := (f0, b0)) (a := sstart) (m := @nil entry) (d := @nil entry) (ts := @nil bytes) (s := dstart)
    as (xs & [f' b'] & a' & m' & d' & ts' & B' & E' & S' & _ & I'); auto; try (rewrite ?Edt, ?Enm, ?Eb; auto; fail); try lia.
  { apply start_rel. }
  exists f0, b0, xs, f', b'. destruct I'. cbn [fst snd] in *. auto 6.
Qed.

(* ------------------------------------------------ without deletions *)
Definition held (s : dstate) (name : bytes) (r : option pyval) : Prop := now s name = r /\ (due s = false -> disk s name = r).
Lemma held_step o : no_del o -> forall s name r, held s name r -> held (dnext s o) name (match last_set [o] name with Some v => Some v | None => r end).
Proof.
  intros Hn s name r [H1 H2]. unfold held. cbn [last_set]. destruct o as [nm v|nm|nm|nm| | |]; try contradiction; cbn [dnext]; auto.
  - assert (Hx : v <> VObj -> dnext s (DSet nm v) = mkD (if has_blank nm then now s else put (now s) nm (Some v)) (disk s) true) by (intros Hv; destruct v; try reflexivity; congruence).
    destruct (match v with VObj => true | _ => false end) eqn:Eo.
    { destruct v; try discriminate. auto. }
    assert (Hv : v <> VObj) by (intros ->; discriminate). cbn [dnext] in Hx. rewrite (Hx Hv). cbn [now due disk].
    replace (match v with VObj => None | _ => if bytes_eqb nm name && negb (has_blank nm) then Some v else None end)
      with (if bytes_eqb nm name && negb (has_blank nm) then Some v else None) by (destruct v; try reflexivity; congruence).
    split; [|discriminate]. destruct (has_blank nm); cbn [negb]; [rewrite andb_false_r; exact H1|]. rewrite andb_true_r. unfold put. rewrite bytes_eqb_sym.
    destruct (bytes_eqb nm name); auto.
  - unfold dflush. cbn [now due disk]. split; [exact H1|]. intros _. destruct (due s); auto.
  - unfold dflush. cbn [now due disk]. destruct (due s); auto.
Qed.
Lemma held_run : forall os, Forall no_del os -> forall s name r, held s name r ->
  now (dfinal s os) name = match last_set os name with Some v => Some v | None => r end.
Proof.
  induction 1 as [|o os Ho _ IH]; intros s name r H.
  - apply H.
  - change (dfinal s (o :: os)) with (dfinal (dnext s o) os). rewrite (IH _ name _ (held_step o Ho s name r H)).
    change (last_set (o :: os) name) with (match last_set os name with Some v => Some v | None => last_set [o] name end).
    destruct (last_set os name); reflexivity.
Qed.

Lemma says_app me : forall os s xs o, dict_says_all me s (os ++ [o]) xs -> exists ys y, xs = ys ++ [y] /\ dict_says me (now (dfinal s os)) o y.
Proof.
  induction os as [|o' os IH]; intros s xs o H.
  - destruct xs as [|x [|x' xs]]; cbn in H; try contradiction; [|destruct H; contradiction]. exists [], x. split; [reflexivity|]. apply H.
  - destruct xs as [|x xs]; [contradiction|]. cbn [app dict_says_all] in H. destruct H as [_ H]. destruct (IH _ _ _ H) as (ys & y & -> & Hy).
    exists (x :: ys), y. split; [reflexivity|]. exact Hy.
Qed.

Theorem attrs_last e f base d nmemb sizes os alloc name : g_clean e -> alloc_ok alloc ->
  block_name base -> block_dir f base -> layout_ok sizes -> fs_get f (attr1_path base) = None ->
  header_type (dtype_normalize (e_me e) d) -> 0 <= nmemb < 2 ^ 31 -> zlen sizes <= 2 ^ 24 ->
  Forall (dop_ok (e_me e)) os -> zsum (map dop_size os) <= 2 ^ 61 -> Forall no_del os -> name_ok name ->
  exists f0 b0 xs st, big_block_create e f base (Some d) nmemb (zlen sizes) sizes = Ret (f0, Some b0) /\
    py_attr_run e alloc (f0, b0) (os ++ [DGet name]) =
      Ret (xs ++ [match last_set os name with Some v => AShow (as_read (e_me e) v) | None => ARaise KeyError end], st).
Proof.
  intros Hg Hal Hn Hd Hl Ha Ht Hnm HN Hos Hsz Hnd Hnk.
  destruct (attrs_dict e f base d nmemb sizes (os ++ [DGet name]) alloc) as (f0 & b0 & xs & f' & b' & E & Er & Hs & _); auto.
  - apply Forall_app. split; [exact Hos|]. repeat constructor; apply Hnk.
  - rewrite map_app. assert (Hz : forall l, zsum (l ++ [dop_size (DGet name)]) = zsum l).
    { clear. induction l as [|x l IH]; [reflexivity|]. change (x + zsum (l ++ [dop_size (DGet name)]) = x + zsum l). lia. }
    cbn [map]. rewrite Hz. exact Hsz.
  - destruct (says_app _ _ _ _ _ Hs) as (ys & y & -> & Hy). cbn [dict_says] in Hy.
    rewrite (held_run os Hnd dstart name None) in Hy by (split; auto). exists f0, b0, ys, (f', b'). split; [exact E|]. rewrite Er, Hy.
    destruct (last_set os name); reflexivity.
Qed.

(* ------------------------------------------------ long strings in a list *)
Lemma digits_fuel : forall k z, 0 <= z < 10 ^ Z.of_nat k -> (0 < k)%nat -> forall n n', (k <= n)%nat -> (k <= n')%nat -> digits_lsf 10 digit n z = digits_lsf 10 digit n' z.
Proof.
  induction k as [|k IH]; intros z Hz Hk n n' Hn Hn'; [lia|]. destruct n as [|n]; [lia|]. destruct n' as [|n']; [lia|]. cbn [digits_lsf]. f_equal.
  destruct (z / 10 =? 0) eqn:E; [reflexivity|]. destruct k as [|k].
  - change (10 ^ Z.of_nat 1) with 10 in Hz. rewrite Z.div_small in E by lia. discriminate.
  - apply IH; try lia. assert (Hp : 10 ^ Z.of_nat (S (S k)) = 10 * 10 ^ Z.of_nat (S k)) by (rewrite <- Z.pow_succ_r by lia; f_equal; lia).
    split; [apply Z.div_pos; lia|apply Z.div_lt_upper_bound; lia].
Qed.
Lemma digits_exact : forall k fuel z, 10 ^ Z.of_nat k <= z < 10 ^ Z.of_nat (S k) -> (S k <= fuel)%nat -> length (digits_lsf 10 digit fuel z) = S k.
Proof.
  induction k as [|k IH]; intros fuel z Hz Hf; (destruct fuel as [|fuel]; [lia|]); cbn [digits_lsf length].
  - change (10 ^ Z.of_nat 1) with 10 in Hz. change (10 ^ Z.of_nat 0) with 1 in Hz. rewrite Z.div_small by lia. reflexivity.
  - assert (Hp : 10 ^ Z.of_nat (S (S k)) = 10 * 10 ^ Z.of_nat (S k)) by (rewrite <- Z.pow_succ_r by lia; f_equal; lia).
    assert (Hq : 10 ^ Z.of_nat (S k) = 10 * 10 ^ Z.of_nat k) by (rewrite <- Z.pow_succ_r by lia; f_equal; lia).
    assert (0 < 10 ^ Z.of_nat k) by (apply Z.pow_pos_nonneg; lia).
    assert (10 ^ Z.of_nat k <= z / 10) by (apply Z.div_le_lower_bound; lia). assert (z / 10 < 10 ^ Z.of_nat (S k)) by (apply Z.div_lt_upper_bound; lia).
    destruct (Z.eqb_spec (z / 10) 0) as [E0|E0]; [lia|]. cbn [length]. rewrite IH; lia.
Qed.
Lemma print_cut z : 100000 <= z < 1000000 -> firstn 5 (print_signed z) = print_signed (z / 10).
Proof.
  intros Hz. assert (H10 : 10000 <= z / 10 < 100000) by (split; [apply Z.div_le_lower_bound|apply Z.div_lt_upper_bound]; lia).
  unfold print_signed. destruct (Z.ltb_spec z 0); [lia|]. destruct (Z.ltb_spec (z / 10) 0); [lia|]. unfold print_unsigned.
  change (digits_lsf 10 digit 64 z) with (digit (z mod 10) :: (if z / 10 =? 0 then [] else digits_lsf 10 digit 63 (z / 10))).
  destruct (Z.eqb_spec (z / 10) 0); [lia|]. rewrite (digits_fuel 5 (z / 10)) with (n := 63%nat) (n' := 64%nat) by (try lia; change (10 ^ Z.of_nat 5) with 100000; lia).
  cbn [rev]. rewrite firstn_app. rewrite rev_length, (digits_exact 4 64 (z / 10)) by (try lia; change (10 ^ Z.of_nat 4) with 10000; change (10 ^ Z.of_nat 5) with 100000; lia).
  change (5 - 5)%nat with 0%nat. rewrite firstn_O, app_nil_r. apply firstn_all2. rewrite rev_length, (digits_exact 4 64 (z / 10)) by (try lia; change (10 ^ Z.of_nat 4) with 10000; change (10 ^ Z.of_nat 5) with 100000; lia). lia.
Qed.
Lemma long_type me w : 100000 <= w < 1000000 ->
  dtype_normalize me (lit "|S" ++ print_signed w) = machine_char me :: "S"%byte :: print_signed (w / 10) /\ itemsize me (lit "|S" ++ print_signed w) = w / 10.
Proof.
  intros Hw. assert (H10 : 10000 <= w / 10 < 100000) by (split; [apply Z.div_le_lower_bound|apply Z.div_lt_upper_bound]; lia).
  assert (E : dtype_normalize me (lit "|S" ++ print_signed w) = machine_char me :: "S"%byte :: print_signed (w / 10)).
  { change (lit "|S" ++ print_signed w) with ("|"%byte :: "S"%byte :: print_signed w).
    assert (F : firstn 7 ("|"%byte :: "S"%byte :: print_signed w) = "|"%byte :: "S"%byte :: print_signed (w / 10))
      by (change (firstn 7 ("|"%byte :: "S"%byte :: print_signed w)) with ("|"%byte :: "S"%byte :: firstn 5 (print_signed w)); rewrite print_cut by exact Hw; reflexivity).
    unfold dtype_normalize. rewrite F. reflexivity. }
  split; [exact E|]. unfold itemsize. rewrite E. cbn [skipn]. apply atoi_print. lia.
Qed.
Theorem long_cut e alloc b m name s : alloc_ok alloc -> as_ok (e_me e) (b_attrset b) m -> as_bufused (b_attrset b) + zlen name <= 2 ^ 60 -> name_ok name -> has_blank name = false ->
  100000 <= zlen s < 1000000 ->
  exists b', py_attr_set e alloc b name (VStrs [s]) = Ret (PyRet tt, b') /\
    py_attr_get e alloc b' name = Ret (PyRet (RStrs [strip_nul (firstn (Z.to_nat (zlen s / 10)) s)]), b').
Proof.
  intros Hal Hok Hus Hn Hb Hs. set (w := zlen s) in *. assert (H10 : 10000 <= w / 10 < 100000) by (split; [apply Z.div_le_lower_bound|apply Z.div_lt_upper_bound]; lia).
  destruct (long_type (e_me e) w Hs) as [Ed Ei]. unfold py_attr_set. cbn [attr_buffer].
  assert (El : longest [s] = w) by (cbn [longest fold_right]; fold w; lia). rewrite El.
  assert (Ep : concat (map (pad w) [s]) = s) by (cbn [map concat]; rewrite app_nil_r; unfold pad; fold w; rewrite Z.sub_diag; cbn [Z.to_nat repeat]; apply app_nil_r). rewrite Ep.
  destruct (alloc (zlen s)) as [p mm]. fold (copied p mm s). set (um := copied p mm s). set (d := lit "|S" ++ print_signed w) in *.
  assert (Hld : load um p (Z.to_nat (1 * itemsize (e_me e) d)) = Some (firstn (Z.to_nat (w / 10)) s)).
  { rewrite Ei, Z.mul_1_l. pose proof (load_copied e d 1 alloc p mm s) as HL. fold um in HL.
    assert (Hsp : length s = (Z.to_nat (w / 10) + (length s - Z.to_nat (w / 10)))%nat) by (unfold w, zlen in *; lia).
    rewrite Hsp in HL. destruct (load_split _ _ _ _ _ HL) as [HL1 _]. exact HL1. }
  change (zlen [s]) with 1.
  destruct (set_spec (e_realloc e) (e_me e) (b_attrset b) m name um p d 1 (firstn (Z.to_nat (w / 10)) s) Hok Hb) as (s' & um' & m' & E & Hok' & _ & Ha' & _); [apply Hn|lia|lia|rewrite Ei; lia|rewrite Ei; lia|exact Hld|].
  rewrite E. cbn [bind]. change (0 =? 0) with true. cbv iota. eexists. split; [reflexivity|].
  rewrite (get_shown e alloc Hal m' _ name (mkAval (dtype_normalize (e_me e) d) 1 (firstn (Z.to_nat (w / 10)) s))).
  - unfold shown. cbn [av_dtype av_nmemb av_data]. rewrite Ed. cbn [nth]. change (Byte.eqb "S" "S") with true. cbv iota.
    replace (itemsize (e_me e) (machine_char (e_me e) :: "S"%byte :: print_signed (w / 10))) with (w / 10) by (rewrite <- Ed; rewrite normalize_itemsize_pos; lia).
    change (Z.to_nat 1) with 1%nat. cbn [group map]. rewrite firstn_firstn, Nat.min_id. reflexivity.
  - cbn [set_attrs b_attrset]. exact Hok'.
  - rewrite Ha'. rewrite bytes_eqb_refl. reflexivity.
  - cbn [av_dtype]. rewrite Ed. apply native_cons.
Qed.
