(* Proofs about bigfile-ls, bigfile-check and bigfile-get-attr. *)
From Coq.Strings Require Import Byte String.
From Coq Require Import List ZArith Lia Bool ZifyBool ZifyNat Sorted Permutation.
From Verif Require Import Base BaseFacts Dtype Cast CastSpec CastFacts Array FS Fmt Attr Block File Spec AttrSpec OpenSpec SessSpec HistSpec FileSpec Util UtilSpec Tools ToolsSpec Show ShowSpec
  FSFacts FileFacts ListFacts HistFacts CopyFacts ToolsFacts StepFacts OpenFacts SeekFacts ReopenFacts WriteFacts AttrFacts AttrFileFacts AttrFileSpec TextFacts.
Import ListNotations.
Open Scope Z_scope.
Local Open Scope out_scope.
Ltac Zify.zify_post_hook ::= Z.div_mod_to_equations.

(* ------------------------------------------------------------------ order *)
Lemma bb_trans a b c : bytes_before a b -> bytes_before b c -> bytes_before a c.
Proof.
  intros H. revert c. induction H as [x r|x y a b H|x a b H IH]; intros c H2; inversion H2; subst; solve [apply bb_nil|apply bb_lt; lia|apply bb_eq; auto].
Qed.
Lemma leb_before a b : bytes_leb a b = true -> a = b \/ bytes_before a b.
Proof.
  revert b. induction a as [|x a IH]; intros [|y b]; cbn [bytes_leb]; intros H; [auto|right; constructor|discriminate|].
  destruct (b2z x <? b2z y) eqn:E1; [right; constructor; lia|]. destruct (b2z y <? b2z x) eqn:E2; [discriminate|].
  assert (x = y) as -> by (apply b2z_inj; lia). destruct (IH b H) as [->|X]; [auto|right; apply bb_eq; exact X].
Qed.
Lemma leb_total a b : bytes_leb a b = false -> bytes_before b a.
Proof.
  revert b. induction a as [|x a IH]; intros [|y b]; cbn [bytes_leb]; intros H; try discriminate; [constructor|].
  destruct (b2z x <? b2z y) eqn:E1; [discriminate|]. destruct (b2z y <? b2z x) eqn:E2; [constructor; lia|].
  assert (x = y) as -> by (apply b2z_inj; lia). apply bb_eq. auto.
Qed.
Lemma insert_sorted c l : ~ In c l -> StronglySorted bytes_before l -> StronglySorted bytes_before (insert_name c l).
Proof.
  induction l as [|d l IH]; intros Hn H; cbn [insert_name]; [repeat constructor|]. inversion_clear H as [|? ? Hs Hf]. destruct (bytes_leb c d) eqn:E.
  - apply leb_before in E. destruct E as [->|E]; [exfalso; apply Hn; left; reflexivity|]. constructor; [constructor; auto|].
    constructor; [exact E|]. eapply Forall_impl; [|exact Hf]. intros x Hx. cbv beta. eapply bb_trans; eassumption.
  - apply leb_total in E. constructor; [apply IH; auto; intros X; apply Hn; right; exact X|].
    eapply Permutation_Forall; [apply insert_perm|]. constructor; auto.
Qed.
Lemma sort_sorted l : NoDup l -> StronglySorted bytes_before (sort_names l).
Proof.
  induction l as [|c l IH]; intros H; [constructor|]. inversion_clear H. cbn. apply insert_sorted; auto.
  intros X. apply H0. eapply Permutation_in; [symmetry; apply sort_perm|exact X].
Qed.
Lemma scan_sorted f s l : scandir f s = Some l -> StronglySorted bytes_before l.
Proof.
  unfold scandir. destruct s; [discriminate|]. destruct (fs_get _ _) as [[|]|]; try discriminate. intros [= <-]. apply sort_sorted. apply NoDup_filter. apply NoDup_nodup.
Qed.
Lemma before_head cs a b : before a b -> before (cs ++ a) (cs ++ b).
Proof. intros H. induction cs as [|c cs IH]; [exact H|]. cbn [app]. apply be_eq. exact IH. Qed.
Lemma ss_app {A} (R : A -> A -> Prop) a b : StronglySorted R a -> StronglySorted R b -> (forall x y, In x a -> In y b -> R x y) -> StronglySorted R (a ++ b).
Proof.
  induction a as [|x a IH]; intros Ha Hb H; [exact Hb|]. inversion_clear Ha as [|? ? Hs Hf]. cbn [app]. constructor.
  - apply IH; auto. intros y z Hy Hz. apply H; [right|]; auto.
  - apply Forall_app. split; [exact Hf|]. apply Forall_forall. intros y Hy. apply H; [left|]; auto.
Qed.

(* ------------------------------------------------------------------ opening changes nothing *)
Lemma open_clean e f base b : big_block_open e f base = Ret (Some b) -> b_dirty b = false /\ as_dirty (b_attrset b) = false.
Proof.
  unfold big_block_open. intros H. apply bind_inv in H. destruct H as ([rc1 s1] & _ & H). destruct (negb (rc1 =? 0)); [discriminate|].
  assert (G : forall (x : out (option block)), ('(rc2, s2) <- attrset_read_v2 (e_realloc e) (e_me e) s1 (file_contents f (attr2_path (strdup base))) ;;
     if negb (rc2 =? 0) then Ret None else if is_meta (strdup base) then Ret (Some (meta_block (strdup base) s2)) else
     match fopen_r f (header_path (strdup base)) with None => Ret None | Some None => Ret None
     | Some (Some c) => h <- parse_header c ;; match h with None => Ret None | Some h => Ret (Some (block_of_header (strdup base) s2 h)) end end) = Ret (Some b) -> b_dirty b = false /\ as_dirty (b_attrset b) = false).
  { intros _ G. apply bind_inv in G. destruct G as ([rc2 s2] & E2 & G). assert (Hd : as_dirty s2 = false).
    { unfold attrset_read_v2 in E2. destruct (file_contents _ _) as [c|]; [|injection E2 as _ <-; reflexivity]. apply bind_inv in E2. destruct E2 as ([rc s'] & _ & E2). injection E2 as _ <-. reflexivity. }
    destruct (negb (rc2 =? 0)); [discriminate|]. destruct (is_meta _); [injection G as <-; split; [reflexivity|exact Hd]|]. destruct (fopen_r f (header_path (strdup base))) as [[c|]|]; try discriminate.
    apply bind_inv in G. destruct G as ([h|] & _ & G); [|discriminate]. injection G as <-. unfold block_of_header. destruct h; split; solve [reflexivity|exact Hd]. }
  destruct (fopen_r f (attr2_path (strdup base))) as [[c|]|]; try discriminate; apply (G (Ret None) H).
Qed.
Lemma ls_block_ok e long f bf name ob : big_file_open_block e f bf name = Ret ob ->
  ls_block e long f bf name = Ret (match ob with Some b => (0, ls_line long name b, f) | None => (-1, [], f) end).
Proof.
  intros H. unfold ls_block. rewrite H. cbn [bind]. destruct ob as [b|]; [|reflexivity]. unfold big_file_open_block in H. apply open_clean in H. destruct H as [H1 H2].
  unfold big_block_close. rewrite (FrameFacts.clean_flush e f b H1 H2). reflexivity.
Qed.

(* ------------------------------------------------------------------ bigfile-ls *)
Lemma resolve_buf bf cs : bf <> [] -> Forall entry_name cs ->
  resolve (match slashed cs with [] => bf | _ => bf ++ "/"%byte :: slashed cs end) = resolve bf ++ cs.
Proof.
  intros Hb H. destruct (slashed cs) as [|x r] eqn:E.
  - assert (cs = []) as -> by (rewrite <- (slashed_comps cs H), E; reflexivity). rewrite app_nil_r. reflexivity.
  - rewrite <- E. destruct bf as [|c bf]; [contradiction|]. rewrite !resolve_nil. unfold root. rewrite comps_app, slashed_comps by auto. cbn [app]. rewrite app_assoc. reflexivity.
Qed.
Lemma buf_ne bf s : bf <> [] -> (match s with [] => bf | _ => bf ++ "/"%byte :: s end) <> [].
Proof. intros H. destruct s; [exact H|]. destruct bf; discriminate. Qed.
Lemma ls_join_slashed cs c : Forall entry_name cs -> ls_join (slashed cs) c = slashed (cs ++ [c]).
Proof.
  intros H. destruct cs as [|x cs]; [reflexivity|]. rewrite slashed_last by discriminate. unfold ls_join. destruct (slashed (x :: cs)) eqn:E; [|reflexivity].
  exfalso. pose proof (slashed_comps _ H) as X. rewrite E in X. discriminate.
Qed.
Lemma shown_entries cs : Forall shown_name cs -> Forall entry_name cs.
Proof. apply Forall_impl. intros a [X _]. exact X. Qed.

Section Ls.
  Variables (e : env) (long : bool) (f : fs) (bf : bytes).
  Hypothesis T : tree f.
  Hypothesis Hbf : bf <> [].
  Let R := resolve bf.
  Hypothesis Hopen : forall cs, visible cs -> fs_get f (R ++ cs) <> None -> exists ob, big_file_open_block e f bf (slashed cs) = Ret ob.

  Definition ls_text (L : list (list bytes * block)) : bytes := concat (map (fun p => ls_line long (slashed (fst p)) (snd p)) L).
  Definition in_order (L : list (list bytes * block)) : Prop := StronglySorted (fun p q => before (fst p) (fst q)) L.
  Definition found (cs : list bytes) (b : block) : Prop := fs_get f (R ++ cs) <> None /\ opens_as e f bf (slashed cs) b.
  Definition ls_list (cs0 : list bytes) (L : list (list bytes * block)) : Prop :=
    in_order L /\ forall cs b, In (cs, b) L <-> exists cs', cs = cs0 ++ cs' /\ visible cs' /\ found cs b.

  Lemma ls_below : forall fuel cs0, Forall shown_name cs0 -> fs_get f (R ++ cs0) <> None -> (fs_depth f < length (R ++ cs0) + fuel)%nat ->
    exists L, ls_r e long bf (S fuel) f (slashed cs0) = Ret (ls_text L, f) /\ ls_list cs0 L.
  Proof.
    induction fuel as [|fuel IH]; intros cs0 Hcs Hex Hf; pose proof (shown_entries _ Hcs) as Hen.
    all: cbn [ls_r]; pose proof (resolve_buf bf cs0 Hbf Hen) as Hr; pose proof (buf_ne bf (slashed cs0) Hbf) as Hb; fold R in Hr;
      set (buf := match slashed cs0 with [] => bf | _ => bf ++ "/"%byte :: slashed cs0 end) in *;
      assert (Eb : (match buf with [] => None | _ => fs_get f (resolve buf) end) = fs_get f (R ++ cs0)) by (rewrite <- Hr; destruct buf; [contradiction|reflexivity]);
      rewrite Eb; clear Eb; destruct (fs_get f (R ++ cs0)) as [[|c]|] eqn:Ed; [| |contradiction].
    2,4: exists []; split; [reflexivity|]; split; [constructor|]; intros cs b; split; [intros []|]; intros (cs' & -> & [V1 V2] & [F1 _]);
      destruct cs' as [|d cs']; [contradiction|]; rewrite app_assoc in F1; change (d :: cs') with ([d] ++ cs') in F1; rewrite app_assoc in F1; apply (tree_up f T) in F1;
      destruct (T _ _ F1) as [X _]; congruence.
    all: destruct (scan_spec f buf Hb) as (l & El & Hnd & Hl); [rewrite Hr; exact Ed|]; rewrite Hr in Hl; pose proof (scan_sorted _ _ _ El) as Hsort; rewrite El.
    - assert (l = []) as ->. { destruct l as [|d l]; [reflexivity|]. exfalso. destruct (proj1 (Hl d) (or_introl eq_refl)) as (H1 & H2 & _).
        rewrite get_find in H2 by auto. apply find_depth in H2. rewrite app_length in H2. cbn in H2. lia. }
      exists []. split; [reflexivity|]. split; [constructor|]. intros cs b. split; [intros []|]. intros (cs' & -> & [V1 V2] & [F1 _]).
      destruct cs' as [|d cs']; [contradiction|]. rewrite app_assoc in F1. change (d :: cs') with ([d] ++ cs') in F1. rewrite app_assoc in F1. apply (tree_up f T) in F1.
      apply Forall_inv in V2. apply (Hl d). split; [|split; [exact F1|apply entry_listed; [apply V2|exact V2]]].
      intros E. destruct (R ++ cs0) as [|y Q]; [|destruct Q; discriminate]. injection E as ->. destruct V2 as [[_ X] _]. apply X. left. reflexivity.
    - match goal with |- context [fold_left ?F _ _] => set (step := F) end.
      assert (Hone : forall d t, In d l -> shown_name d /\ fs_get f (R ++ cs0 ++ [d]) <> None /\
        exists L, step (Ret (t, f)) d = Ret (t ++ ls_text L, f) /\ in_order L /\ forall cs b, In (cs, b) L <-> exists cs', cs = cs0 ++ d :: cs' /\ visible (d :: cs') /\ found cs b).
      { intros d t Hd. apply Hl in Hd. destruct Hd as (H1 & H2 & H3). destruct (T _ _ H2) as [_ [He|[X1 X2]]].
        2:{ exfalso. apply H1. rewrite X1, X2. reflexivity. }
        pose proof (proj1 (entry_listed d He) H3) as Hsh. split; [exact Hsh|]. rewrite <- app_assoc in H2. split; [exact H2|].
        assert (Hcs1 : Forall shown_name (cs0 ++ [d])) by (apply Forall_app; auto).
        destruct (IH (cs0 ++ [d]) Hcs1 H2) as (L & EL & S1 & S2). { rewrite !app_length in *. cbn. lia. }
        destruct (Hopen (cs0 ++ [d])) as (ob & Eo). { split; [destruct cs0; discriminate|exact Hcs1]. } { exact H2. }
        cbn [ls_r] in EL. unfold step. cbn [bind]. rewrite ls_join_slashed by auto. rewrite (ls_block_ok _ _ _ _ _ _ Eo). destruct ob as [b0|]; cbn [bind]; rewrite EL; cbn [bind].
        - exists ((cs0 ++ [d], b0) :: L). split; [reflexivity|]. split.
          + constructor; [exact S1|]. apply Forall_forall. intros [cs b] Hi. apply S2 in Hi. destruct Hi as (cs' & -> & [V1 _] & _). cbn [fst].
            rewrite <- (app_nil_r (cs0 ++ [d])) at 1. apply before_head. destruct cs'; [contradiction|constructor].
          + intros cs b. cbn [In]. rewrite S2. split.
            * intros [[= <- <-]|(cs' & -> & [V1 V2] & F)]; [exists []|exists cs'; rewrite <- app_assoc].
              -- split; [reflexivity|]. split; [split; [discriminate|auto]|]. split; [exact H2|exact Eo].
              -- split; [reflexivity|]. split; [split; [discriminate|auto]|]. rewrite <- app_assoc in F. exact F.
            * intros (cs' & -> & [V1 V2] & F). destruct cs' as [|x cs'].
              -- left. destruct F as [_ F]. unfold opens_as in F. rewrite Eo in F. congruence.
              -- right. exists (x :: cs'). rewrite <- app_assoc. split; [reflexivity|]. split; [split; [discriminate|eapply Forall_inv_tail; exact V2]|exact F].
        - exists L. split; [reflexivity|]. split; [exact S1|]. intros cs b. rewrite S2. split.
          + intros (cs' & -> & [V1 V2] & F). exists cs'. rewrite <- app_assoc in *. split; [reflexivity|]. split; [split; [discriminate|auto]|exact F].
          + intros (cs' & -> & [V1 V2] & F). destruct cs' as [|x cs'].
            * destruct F as [_ F]. unfold opens_as in F. rewrite Eo in F. discriminate.
            * exists (x :: cs'). rewrite <- app_assoc. split; [reflexivity|]. split; [split; [discriminate|eapply Forall_inv_tail; exact V2]|exact F]. }
      assert (Hall : forall l' t, (forall d, In d l' -> In d l) -> StronglySorted bytes_before l' ->
        exists L, fold_left step l' (Ret (t, f)) = Ret (t ++ ls_text L, f) /\ in_order L /\
          forall cs b, In (cs, b) L <-> exists d cs', In d l' /\ cs = cs0 ++ d :: cs' /\ visible (d :: cs') /\ found cs b).
      { induction l' as [|d l' IHl]; intros t Hin Hs.
        - exists []. cbn. rewrite app_nil_r. split; [reflexivity|]. split; [constructor|]. intros cs b. split; [intros []|]. intros (d & cs' & [] & _).
        - inversion_clear Hs as [|? ? Hs1 Hs2]. destruct (Hone d t (Hin d (or_introl eq_refl))) as (_ & _ & L1 & E1 & N1 & B1).
          cbn [fold_left]. rewrite E1. destruct (IHl (t ++ ls_text L1)) as (L2 & E2 & N2 & B2); auto.
          { intros x Hx. apply Hin. right. auto. }
          exists (L1 ++ L2). unfold ls_text at 2. rewrite E2, map_app, concat_app, app_assoc. split; [reflexivity|]. split.
          + apply ss_app; auto. intros [c1 b1] [c2 b2] H1 H2. apply B1 in H1. apply B2 in H2. destruct H1 as (x1 & -> & _). destruct H2 as (d2 & x2 & Hd2 & -> & _). cbn [fst].
            apply before_head. apply be_lt. rewrite Forall_forall in Hs2. auto.
          + intros cs b. rewrite in_app_iff, B1, B2. split.
            * intros [(cs' & H)|(d1 & cs' & H1 & H2)]; [exists d, cs'; split; [left; auto|auto]|exists d1, cs'; split; [right; auto|auto]].
            * intros (d1 & cs' & [<-|H1] & H2); [left; eauto|right; exists d1, cs'; auto]. }
      destruct (Hall l [] (fun d h => h) Hsort) as (L & E & N & B). exists L. split; [exact E|]. split; [exact N|].
      intros cs b. rewrite B. split.
      + intros (d & cs' & _ & H). eauto.
      + intros (cs' & -> & [V1 V2] & F). destruct cs' as [|d cs']; [contradiction|]. exists d, cs'. split; [|split; [reflexivity|split; [split; auto|exact F]]].
        apply Hl. pose proof (Forall_inv V2) as Vd. destruct F as [F1 _]. rewrite app_assoc in F1. change (d :: cs') with ([d] ++ cs') in F1. rewrite app_assoc in F1. apply (tree_up f T) in F1.
        split; [|split; [exact F1|apply entry_listed; [apply Vd|exact Vd]]].
        intros E'. destruct (R ++ cs0) as [|y Q]; [|destruct Q; discriminate]. injection E' as ->. destruct Vd as [[_ X] _]. apply X. left. reflexivity.
  Qed.
End Ls.

Lemma ls_spec e long f path : tree f -> path <> [] -> (length path <= Z.to_nat 8192)%nat -> fs_get f (resolve path) <> None ->
  (forall cs, visible cs -> fs_get f (resolve path ++ cs) <> None -> exists ob, big_file_open_block e f path (slashed cs) = Ret ob) ->
  exists L : list (list bytes * block), bigfile_ls e long f path None = Ret (0, concat (map (fun p => ls_line long (slashed (fst p)) (snd p)) L), f) /\
    StronglySorted (fun p q => before (fst p) (fst q)) L /\
    forall cs b, In (cs, b) L <-> visible cs /\ fs_get f (resolve path ++ cs) <> None /\ opens_as e f path (slashed cs) b.
Proof.
  intros HT Hp Hlen Hex Ho. destruct (ls_below e long f path HT Hp Ho (S (fs_depth f)) [] (Forall_nil _)) as (L & E & N & B).
  - rewrite app_nil_r. exact Hex.
  - lia.
  - exists L. split; [|split; [exact N|]].
    + unfold bigfile_ls, big_file_open. destruct path as [|c path]; [contradiction|]. destruct (fs_get f (resolve (c :: path))); [|contradiction]. rewrite OpenFacts.strdup_id by exact Hlen.
      change (slashed []) with (@nil byte) in E. rewrite E. reflexivity.
    + intros cs b. rewrite B. split; [intros (cs' & -> & V & F); split; [exact V|exact F]|intros (V & F); exists cs; split; [reflexivity|split; [exact V|exact F]]].
Qed.

(* ------------------------------------------------------------------ fields of a line *)
Lemma awk_word s : forall cur r, Forall (fun c => c <> " "%byte /\ c <> x09 /\ c <> x0a) s -> awk_fields cur (s ++ r) = awk_fields (rev s ++ cur) r.
Proof.
  induction s as [|c s IH]; intros cur r H; [reflexivity|]. inversion_clear H as [|? ? [H1 [H2 H3]] Hs]. cbn [app awk_fields rev].
  destruct (Byte.eqb c " ") eqn:E1; [apply byte_eqb_eq in E1; congruence|]. destruct (Byte.eqb c x09) eqn:E2; [apply byte_eqb_eq in E2; congruence|].
  destruct (Byte.eqb c x0a) eqn:E3; [apply byte_eqb_eq in E3; congruence|]. cbn [orb]. rewrite IH by auto. rewrite <- app_assoc. reflexivity.
Qed.
Lemma awk_blanks k r : awk_fields [] (repeat " "%byte k ++ r) = awk_fields [] r.
Proof. induction k as [|k IH]; [reflexivity|]. exact IH. Qed.
Lemma rev_ne {A} (s : list A) : s <> [] -> exists x y, rev s = x :: y.
Proof. intros H. destruct (rev s) as [|x y] eqn:E; [|eauto]. apply (f_equal (@rev A)) in E. rewrite rev_involutive in E. contradiction. Qed.
Lemma awk_line l t : fields_line l t -> Forall unbroken l -> awk_fields [] t = l.
Proof.
  induction 1 as [s|s k l t H IH]; intros HF; pose proof (Forall_inv HF) as [Hn Hs]; destruct (rev_ne s Hn) as (x & y & E).
  - rewrite awk_word by auto. rewrite app_nil_r. cbn [awk_fields]. change (Byte.eqb x0a " " || Byte.eqb x0a x09 || Byte.eqb x0a x0a) with true. cbv iota. rewrite E. rewrite <- E, rev_involutive. reflexivity.
  - rewrite awk_word by auto. rewrite app_nil_r. cbn [repeat app awk_fields]. change (Byte.eqb " " " " || Byte.eqb " " x09 || Byte.eqb " " x0a) with true. cbv iota.
    rewrite E. rewrite <- E, rev_involutive, awk_blanks, IH; [reflexivity|]. eapply Forall_inv_tail. exact HF.
Qed.
Lemma rep_end {A} (c : A) k r : repeat c k ++ c :: r = repeat c (S k) ++ r.
Proof. induction k as [|k IH]; [reflexivity|]. cbn [repeat app]. rewrite IH. reflexivity. Qed.
Lemma line_fields name b : fields_line [name; b_dtype b; print_signed (b_nmemb b); print_signed (s64 (b_size b)); pad_left "0" 5 (print_unsigned (ls_checksum b)); print_signed (b_Nfile b); b_base b]
  (ls_line true name b).
Proof.
  unfold ls_line, pad_right. cbn [negb]. rewrite <- app_assoc. change (lit " ") with [" "%byte]. cbn [app]. rewrite rep_end. apply fl_more.
  apply (fl_more (b_dtype b) 0). unfold pad_left at 2. rewrite <- app_assoc.
  apply (fl_more (print_signed (b_nmemb b)) (12 - length (print_signed (s64 (b_size b))))). apply (fl_more (print_signed (s64 (b_size b))) 0).
  apply (fl_more (pad_left "0" 5 (print_unsigned (ls_checksum b))) 0). apply (fl_more (print_signed (b_Nfile b)) 0). apply fl_last.
Qed.
Lemma digit_unbroken ds : ds <> [] -> Forall decimal_digit ds -> unbroken ds.
Proof. intros Hn H. split; [exact Hn|]. eapply Forall_impl; [|exact H]. intros c Hc. unfold decimal_digit in Hc. repeat split; intros ->; vm_compute in Hc; destruct Hc as [Hc1 Hc2]; first [apply Hc1; reflexivity|apply Hc2; reflexivity]. Qed.
Lemma number_unbroken t z : number t z -> unbroken t.
Proof.
  intros (neg & ds & -> & Hn & Hd & _). destruct (digit_unbroken ds Hn Hd) as [_ U]. destruct neg; split; auto; try discriminate. constructor; [repeat split; discriminate|exact U].
Qed.
Lemma padded k ds z : ds <> [] -> Forall decimal_digit ds -> z = decimal_value ds -> number (pad_left "0" k ds) z.
Proof.
  intros Hn Hd ->. exists false, (pad_left "0" k ds). split; [reflexivity|]. unfold pad_left. split; [destruct (repeat _ _); [exact Hn|discriminate]|]. split.
  - apply Forall_app. split; [|exact Hd]. apply Forall_forall. intros c Hc. apply repeat_spec in Hc. subst c. unfold decimal_digit. split; vm_compute; discriminate.
  - unfold decimal_value. rewrite fold_left_app. f_equal. induction (k - length ds)%nat as [|j IH]; [reflexivity|]. cbn [repeat fold_left]. exact IH.
Qed.

(* ------------------------------------------------------------------ sums *)
Lemma zs_cons x l : zsum (x :: l) = x + zsum l.
Proof. reflexivity. Qed.
Lemma zs_add {A} (g h : A -> Z) l : zsum (map (fun x => g x + h x) l) = zsum (map g l) + zsum (map h l).
Proof. induction l as [|x l IH]; [reflexivity|]. cbn [map]. rewrite !zs_cons, IH. lia. Qed.
Lemma zs_zero {A} (g : A -> Z) l : (forall x, In x l -> g x = 0) -> zsum (map g l) = 0.
Proof. induction l as [|x l IH]; intros H; [reflexivity|]. cbn [map]. rewrite zs_cons, (H x) by (left; auto). rewrite IH; [reflexivity|]. intros y Hy. apply H. right. exact Hy. Qed.
Lemma zs_one (g : nat -> Z) k : forall n a, (a <= k < a + n)%nat -> (forall i, i <> k -> g i = 0) -> zsum (map g (seq a n)) = g k.
Proof.
  induction n as [|n IH]; intros a Hk H; [lia|]. cbn [seq map]. rewrite zs_cons. destruct (Nat.eq_dec a k) as [->|Hn].
  - rewrite zs_zero; [lia|]. intros x Hx. apply in_seq in Hx. apply H. lia.
  - rewrite H by lia. rewrite IH by (auto; lia). lia.
Qed.
Lemma bs_concat rows : byte_sum (concat rows) = zsum (map byte_sum rows).
Proof. induction rows as [|v r IH]; [reflexivity|]. cbn [concat map]. rewrite byte_sum_app, zs_cons, IH. reflexivity. Qed.
Lemma bs_zeros n : byte_sum (repeat x00 n) = 0.
Proof. unfold byte_sum. induction n as [|n IH]; [reflexivity|]. cbn [repeat map]. rewrite zs_cons, IH. reflexivity. Qed.

Definition obytes (o : option bytes) : Z := match o with Some v => byte_sum v | None => 0 end.
Definition row_total (t : table) : Z := zsum (map (fun r => obytes (t_row t (Z.of_nat r))) (seq 0 (Z.to_nat (t_size t)))).
Record ledger (t : table) : Prop := {
  lg_sum : written_bytes t = row_total t;
  lg_unborn : forall i, (length (t_sizes t) <= i)%nat -> t_sum t i = 0;
  lg_rows : forall r, t_size t <= r -> t_row t r = None;
  lg_sizes : Forall (fun s => 0 <= s) (t_sizes t)
}.
Lemma bytes_into_all sizes : Forall (fun s => 0 <= s) sizes -> forall rows o, 0 <= o -> o + zlen rows <= zsum sizes ->
  zsum (map (fun i => bytes_into sizes i o rows) (seq 0 (length sizes))) = byte_sum (concat rows).
Proof.
  intros Hs. induction rows as [|v rows IH]; intros o Ho Hz.
  - cbn [bytes_into concat]. apply zs_zero. reflexivity.
  - rewrite zlen_cons in Hz. pose proof (zlen_nonneg rows). cbn [bytes_into concat]. rewrite zs_add, IH, byte_sum_app by lia. f_equal.
    destruct (home_some sizes o Hs ltac:(lia)) as (i & q & E). rewrite E. destruct (home_lt _ _ _ _ E) as [Hi _].
    rewrite (zs_one _ i); [|lia|intros j Hj; destruct (Nat.eqb_spec i j); [congruence|reflexivity]]. rewrite Nat.eqb_refl. reflexivity.
Qed.
Lemma rows_sum : forall rows o n, 0 <= o -> o + zlen rows <= Z.of_nat n ->
  zsum (map (fun r => if (o <=? Z.of_nat r) && (Z.of_nat r <? o + zlen rows) then obytes (nth_error rows (Z.to_nat (Z.of_nat r - o))) else 0) (seq 0 n)) = byte_sum (concat rows).
Proof.
  induction rows as [|v rows IH]; intros o n Ho Hz.
  - apply zs_zero. intros r _. change (zlen (@nil bytes)) with 0. destruct (_ && _); [|reflexivity]. destruct (Z.to_nat _); reflexivity.
  - rewrite zlen_cons in *. pose proof (zlen_nonneg rows). cbn [concat]. rewrite byte_sum_app, <- (IH (o + 1) n) by lia.
    rewrite (map_ext _ (fun r => (if Nat.eqb r (Z.to_nat o) then byte_sum v else 0) +
       (if (o + 1 <=? Z.of_nat r) && (Z.of_nat r <? o + 1 + zlen rows) then obytes (nth_error rows (Z.to_nat (Z.of_nat r - (o + 1)))) else 0))).
    + rewrite zs_add. f_equal. rewrite (zs_one _ (Z.to_nat o)); [|lia|intros j Hj; destruct (Nat.eqb_spec j (Z.to_nat o)); [congruence|reflexivity]]. rewrite Nat.eqb_refl. reflexivity.
    + intros r. destruct (Nat.eqb_spec r (Z.to_nat o)) as [->|Hne].
      * replace ((o <=? Z.of_nat (Z.to_nat o)) && (Z.of_nat (Z.to_nat o) <? o + (1 + zlen rows))) with true by lia.
        replace (o + 1 <=? Z.of_nat (Z.to_nat o)) with false by lia. replace (Z.to_nat (Z.of_nat (Z.to_nat o) - o)) with O by lia. cbn. lia.
      * destruct (o + 1 <=? Z.of_nat r) eqn:E1; cbn [andb].
        -- replace (o <=? Z.of_nat r) with true by lia. replace (Z.of_nat r <? o + (1 + zlen rows)) with (Z.of_nat r <? o + 1 + zlen rows) by lia. cbn [andb].
           destruct (_ <? _); [|lia]. replace (Z.to_nat (Z.of_nat r - o)) with (S (Z.to_nat (Z.of_nat r - (o + 1)))) by lia. cbn [nth_error]. lia.
        -- replace (o <=? Z.of_nat r) with false by lia. reflexivity.
Qed.
Lemma ledger_write t o rows : ledger t -> 0 <= o -> o + zlen rows <= t_size t -> (forall q, o <= q < o + zlen rows -> t_row t q = None) -> ledger (with_rows t o rows).
Proof.
  intros [L1 L2 L3 L4] Ho Hz Hn. constructor; cbn [with_rows t_sizes t_row t_sum].
  - unfold written_bytes, row_total, t_size in *. cbn [with_rows t_sizes t_row t_sum]. rewrite zs_add, bytes_into_all by auto. rewrite L1.
    rewrite <- (rows_sum rows o (Z.to_nat (zsum (t_sizes t)))) by lia. rewrite <- zs_add. f_equal. apply map_ext. intros r.
    destruct ((o <=? Z.of_nat r) && (Z.of_nat r <? o + zlen rows)) eqn:E; [rewrite Hn by lia; reflexivity|lia].
  - intros i Hi. rewrite (L2 i Hi). assert (E : forall rs p, bytes_into (t_sizes t) i p rs = 0); [|rewrite E; reflexivity].
    induction rs as [|v rs IH]; intros p; [reflexivity|]. cbn [bytes_into]. rewrite IH. destruct (home (t_sizes t) p) as [[k q]|] eqn:E; [|reflexivity].
    destruct (home_lt _ _ _ _ E). destruct (Nat.eqb_spec k i); [lia|reflexivity].
  - change (t_size (with_rows t o rows)) with (t_size t). intros r Hr. replace ((o <=? r) && (r <? o + zlen rows)) with false by lia. auto.
  - exact L4.
Qed.
Lemma ledger_grow t gs : ledger t -> Forall (fun s => 0 <= s) (t_sizes t ++ gs) -> ledger (mkTab (t_sizes t ++ gs) (t_row t) (t_sum t)).
Proof.
  intros [L1 L2 L3 L4] Hs. pose proof (zsum_nonneg _ L4). assert (Hg : 0 <= zsum gs) by (apply zsum_nonneg; apply Forall_app in Hs; apply Hs). unfold t_size in *. constructor; unfold written_bytes, row_total, t_size in *; cbn [t_sizes t_row t_sum].
  - rewrite app_length, seq_app, map_app, zsum_app, L1. rewrite zsum_app, Z2Nat.inj_add, seq_app, map_app, zsum_app by lia. f_equal.
    rewrite !zs_zero; [reflexivity| |].
    + intros r Hr. apply in_seq in Hr. rewrite L3 by lia. reflexivity.
    + intros i Hi. apply in_seq in Hi. apply L2. lia.
  - intros i Hi. rewrite app_length in Hi. apply L2. lia.
  - intros r Hr. rewrite zsum_app in Hr. apply L3. lia.
  - exact Hs.
Qed.
Lemma ledger_new sizes : Forall (fun s => 0 <= s) sizes -> ledger (new_table sizes).
Proof.
  intros H. constructor; auto. unfold written_bytes, row_total. rewrite !zs_zero; auto.
Qed.
Lemma ledger_history me dt nmemb os : forall t xs t', 0 < nmemb -> hspecs me dt nmemb t os xs t' -> history_ok me dt nmemb (t_sizes t) os -> written_once me dt nmemb t os ->
  ledger t -> ledger t' /\ t_sizes t' = fold_left sizes_after os (t_sizes t).
Proof.
  induction os as [|o os IH]; intros t xs t' Hnm H Hok Hw L; inversion H; subst; [auto|]. destruct Hok as [Ho Hok]. destruct Hw as [Hw1 Hw2]. specialize (Hw2 _ _ H3).
  assert (L1 : ledger t1 /\ t_sizes t1 = sizes_after (t_sizes t) o).
  { inversion H3; subst; cbn [sizes_after]; auto.
    - split; [|reflexivity]. destruct Ho as (Hp & _ & Ha & _). assert (Hnr : zlen (rows_of nmemb (nrows nmemb a) outs) = Z.max 0 (nrows nmemb a)) by (unfold zlen; rewrite rows_of_length; lia).
      assert (Hpos : 0 <= nrows nmemb a). { unfold nrows. apply Z.div_pos; [|lia]. rewrite (ao_size _ Ha). pose proof (ao_pos _ Ha) as X. unfold zprod. induction X; cbn [fold_right]; lia. }
      apply ledger_write; auto; [lia|lia|]. intros q Hq. apply Hw1; lia.
    - split; [|reflexivity]. apply ledger_grow; [exact L|]. apply Ho. }
  destruct L1 as [L1 L2]. rewrite <- L2 in Hok. destruct (IH _ _ _ Hnm H6 Hok Hw2 L1) as [A B]. split; [exact A|]. rewrite B, L2. reflexivity.
Qed.
Lemma ledger_lives me dt nmemb rs : forall t M t' M', 0 < nmemb -> lives me dt nmemb t M rs t' M' -> rounds_ok me dt nmemb (t_sizes t) rs -> rounds_once me dt nmemb t rs -> ledger t -> ledger t'.
Proof.
  induction rs as [|r rs IH]; intros t M t' M' Hnm H Hok Ho L; inversion H; subst; auto; destruct Hok as [Hok1 Hok2].
  - destruct Ho as [Ho1 Ho2]. destruct (ledger_history _ _ _ _ _ _ _ Hnm H4 Hok1 Ho1 L) as [L1 L2]. eapply IH; eauto. rewrite L2. exact Hok2.
  - eapply IH; eauto.
Qed.
Lemma shown_sum w t rows : ledger t -> zlen rows = t_size t -> shows_from w t 0 rows -> byte_sum (concat rows) = written_bytes t.
Proof.
  intros [L1 _ _ _] Hz [_ Hs]. rewrite L1, bs_concat. unfold row_total. rewrite <- Hz. unfold zlen. rewrite Nat2Z.id. f_equal.
  apply nth_error_ext. intros k. rewrite !nth_error_map. destruct (nth_error rows k) as [v|] eqn:E.
  - assert (Hk : (k < length rows)%nat) by (apply nth_error_Some; congruence). rewrite (nth_error_nth' _ O) by (rewrite seq_length; exact Hk). rewrite seq_nth by exact Hk. cbn [option_map]. f_equal.
    specialize (Hs k v E). rewrite !Z.add_0_l in Hs. cbn [Nat.add]. destruct Hs as [Hs|(Hs & -> & _)]; rewrite Hs; cbn [obytes]; [reflexivity|apply bs_zeros].
  - apply nth_error_None in E. replace (nth_error (seq 0 (length rows)) k) with (@None nat); [reflexivity|]. symmetry. apply nth_error_None. rewrite seq_length. exact E.
Qed.

(* ------------------------------------------------------------------ bigfile-check *)
Lemma reduce_sysv s : reduce_sum (s mod 2 ^ 32) = sysv_of s.
Proof.
  unfold reduce_sum, sysv_of. change (2 ^ 32) with 4294967296. change (2 ^ 16) with 65536. rewrite Z.mod_mod by lia.
  replace (s mod 4294967296 mod 65536) with (s mod 65536); [reflexivity|]. apply Znumtheory.Zmod_div_mod; [lia|lia|]. exists 65536. reflexivity.
Qed.
Lemma sysv_range s : 0 <= sysv_of s < 10 ^ 64.
Proof. unfold sysv_of. change (2 ^ 32) with 4294967296. change (2 ^ 16) with 65536. lia. Qed.
Lemma zs_mods (g : nat -> Z) m l : m <> 0 -> zsum (map (fun i => g i mod m) l) mod m = zsum (map g l) mod m.
Proof.
  intros Hm. induction l as [|x l IH]; [reflexivity|]. cbn [map]. rewrite !zs_cons. rewrite Z.add_mod_idemp_l by exact Hm.
  rewrite <- Z.add_mod_idemp_r, IH, Z.add_mod_idemp_r by exact Hm. reflexivity.
Qed.
Lemma ls_written e base dt nmemb w t f b : hinv e base dt nmemb w t f b -> ls_checksum b = sysv_of (written_bytes t).
Proof.
  intros I. destruct (hinv_size _ _ _ _ _ _ _ _ I) as (_ & _ & _ & HL). unfold ls_checksum. rewrite (hl_Nfile _ _ HL). unfold zlen. rewrite Nat2Z.id.
  rewrite firstn_map_nth by (rewrite (hl_cks _ _ HL); lia).
  pose proof (zsum_mod (map (fun i => nth i (b_fchecksum b) 0) (seq 0 (length (t_sizes t)))) 0) as HZ. change (0 mod 2 ^ 32) with 0 in HZ. rewrite HZ, Z.add_0_l. clear HZ.
  rewrite <- (reduce_sysv (written_bytes t)). f_equal. unfold written_bytes. 
  rewrite <- (zs_mods (t_sum t)) by lia. f_equal. f_equal. apply map_ext_in. intros i Hi. apply in_seq in Hi.
  apply (hv_sum _ _ _ _ _ _ _ _ I). lia.
Qed.
Lemma blank_free p s : has_blank (path_join p s) = false -> Forall (fun c => c <> " "%byte /\ c <> x09 /\ c <> x0a) s.
Proof.
  intros H. assert (H2 : has_blank s = false).
  { unfold path_join in H. unfold has_blank in *. destruct (rev p) as [|c r]; [exact H|]. destruct (Byte.eqb c "/"); rewrite !existsb_app in H; apply orb_false_iff in H; destruct H as [_ H]; [exact H|]. apply orb_false_iff in H. apply H. }
  clear H. apply Forall_forall. intros c Hc. destruct (Byte.eqb c " " || Byte.eqb c x09 || Byte.eqb c x0a) eqn:E.
  - exfalso. assert (X : has_blank s = true); [|congruence]. unfold has_blank. apply existsb_exists. eauto.
  - apply orb_false_iff in E. destruct E as [E E3]. apply orb_false_iff in E. destruct E as [E1 E2].
    repeat split; intros ->; [rewrite (proj2 (byte_eqb_eq _ _) eq_refl) in E1|rewrite (proj2 (byte_eqb_eq _ _) eq_refl) in E2|rewrite (proj2 (byte_eqb_eq _ _) eq_refl) in E3]; discriminate.
Qed.
Lemma type_unbroken d : header_type d -> unbroken d.
Proof.
  intros (H1 & _ & H2). split; [intros ->; vm_compute in H1; discriminate|]. eapply Forall_impl; [|exact H2]. intros c [Hc _]. repeat split; intros ->; vm_compute in Hc; discriminate.
Qed.
Lemma s64_small z : - 10 ^ 64 < s64 z < 10 ^ 64.
Proof. unfold s64. change (2 ^ 64) with 18446744073709551616. change (2 ^ 63) with 9223372036854775808. lia. Qed.
Lemma ls_checksum_small b : 0 <= ls_checksum b < 10 ^ 64.
Proof. unfold ls_checksum. generalize (fold_left (fun s c => u32 (s + c)) (firstn (Z.to_nat (b_Nfile b)) (b_fchecksum b)) 0). intros z. unfold reduce_sum. change (2 ^ 32) with 4294967296. lia. Qed.
Lemma ls_made e f path blk dt nmemb t d b0 : let base := path_join path blk in
  block_name base -> header_type dt -> 0 < nmemb < 2 ^ 31 -> big_file_open f path = Some path -> fresh e base dt nmemb (2 ^ 61) t d f b0 ->
  exists tn ts tc tf line, bigfile_ls e true f path (Some blk) = Ret (0, line, f) /\ fields_line [blk; dt; tn; ts; tc; tf; base] line /\
    number tn nmemb /\ number ts (t_size t) /\ number tc (sysv_of (written_bytes t)) /\ number tf (zlen (t_sizes t)).
Proof.
  intros base Hbn Hty Hnm Ho F. destruct (live_open e path blk dt nmemb (2 ^ 61) t d f b0 Hbn Hty Hnm ltac:(lia) F) as (b & Eb & G). pose proof (fr_inv _ _ _ _ _ _ _ _ _ G) as I.
  destruct (hinv_size _ _ _ _ _ _ _ _ I) as (Es & Ed & En & HL). pose proof (line_fields blk b) as Hf. rewrite Ed, (hv_base _ _ _ _ _ _ _ _ I) in Hf.
  assert (Hts : 0 <= t_size t < 2 ^ 63) by (pose proof (hl_small _ _ HL); unfold t_size in *; split; [apply zsum_nonneg; apply HL|lia]).
  eexists _, _, _, _, _. split; [unfold bigfile_ls; rewrite Ho, (ls_block_ok _ _ _ _ _ _ Eb); reflexivity|]. split; [exact Hf|].
  split; [rewrite <- En; apply numeral_number, print_numeral; rewrite En; lia|]. split; [|split].
  - replace (t_size t) with (s64 (b_size b)); [apply numeral_number, print_numeral, s64_small|]. rewrite Es. unfold s64. change (2 ^ 64) with 18446744073709551616. change (2 ^ 63) with 9223372036854775808 in *. lia.
  - rewrite <- (ls_written _ _ _ _ _ _ _ _ I). destruct (unsigned_numeral (ls_checksum b) (ls_checksum_small b)) as (A1 & A2 & A3 & _). apply padded; auto; lia.
  - rewrite <- (hl_Nfile _ _ HL). apply numeral_number, print_numeral. rewrite (hl_Nfile _ _ HL). pose proof (hv_N _ _ _ _ _ _ _ _ I). pose proof (zlen_nonneg (t_sizes t)). lia.
Qed.
Lemma check_main e f path blk dt nmemb t d b0 : let base := path_join path blk in let w := itemsize (e_me e) dt * nmemb in
  block_name base -> blk <> [] -> header_type dt -> 0 < nmemb < 2 ^ 31 -> w <= e_chunk e -> w < 2 ^ 31 -> dt_ok (e_me e) dt -> t_size t * nmemb < 2 ^ 63 -> w <= 2 ^ 28 ->
  big_file_open f path = Some path -> fresh e base dt nmemb (2 ^ 61) t d f b0 ->
  forall rows fuel, zlen rows = t_size t -> shows_from w t 0 rows -> t_size t < Z.of_nat fuel ->
  check_block e f path blk fuel = Ret (negb (sysv_of (written_bytes t) =? sysv_checksum (concat rows))).
Proof.
  intros base w Hbn Hblk Hty Hnm Hwc Hw31 Hdt Hsm Hw28 Ho F rows fuel Hz Hsh Hfu.
  destruct (live_open e path blk dt nmemb (2 ^ 61) t d f b0 Hbn Hty Hnm ltac:(lia) F) as (b & Eb & G). pose proof (fr_inv _ _ _ _ _ _ _ _ _ G) as I.
  destruct (hinv_size _ _ _ _ _ _ _ _ I) as (Es & Ed & En & HL).
  assert (Hi : 0 < itemsize (e_me e) dt) by apply Hdt. assert (Hw : 0 < w) by (unfold w; nia).
  pose proof (zlen_nonneg rows) as Hr0.
  assert (El : last_row (t_size t) 0 (rows_asked (t_size t) 0 (-1)) (Z.min (2 ^ 28 / w) (rows_asked (t_size t) 0 (-1))) = t_size t).
  { unfold rows_asked. change (-1 =? -1) with true. cbn [orb]. rewrite Z.sub_0_r, (Z.max_r 0 (t_size t)) by lia. unfold last_row. destruct (t_size t <=? 0) eqn:E0; [lia|].
    assert (Hb : 1 <= 2 ^ 28 / w) by (apply Z.div_le_lower_bound; lia). set (q := Z.min (2 ^ 28 / w) (t_size t)). assert (1 <= q) by lia. clearbody q. rewrite Z.add_0_l. apply Z.min_l.
    pose proof (Z.div_mod (t_size t + q - 1) q ltac:(lia)). pose proof (Z.mod_pos_bound (t_size t + q - 1) q ltac:(lia)). lia. }
  destruct (cat_main e f path blk dt nmemb t d b0 false (fun rows s => s = concat rows) Hbn Hty Hnm Hwc Hw31 Hdt Hsm Ho F eq_refl
    ltac:(intros r1 t1 r2 t2 H1 H2; cbv beta in H1, H2; rewrite H1, H2; symmetry; apply concat_app)
    ltac:(intros b' rows' m Eb' En' _ HF Hl; exists (concat rows'); split; [exact (cat_binary e dt nmemb b' rows' m (proj1 Hnm) Hdt Eb' En' HF Hl)|reflexivity])
    0 (-1) (2 ^ 28) fuel ltac:(lia) ltac:(lia) ltac:(fold w; lia) Hfu) as [H1 _]. fold w in H1. rewrite El in H1.
  destruct (H1 rows ltac:(lia) Hsh) as (s & Ec & ->). clear H1 El.
  unfold check_block. rewrite Ec. cbn [bind]. unfold bigfile_ls. rewrite Ho. rewrite (ls_block_ok _ _ _ _ _ _ Eb). cbn [bind].
  f_equal. pose proof (line_fields blk b) as Hf.
  destruct (print_numeral (b_nmemb b) ltac:(rewrite En; lia)) as (ds1 & Hd1).
  pose proof (numeral_number _ _ (ex_intro _ ds1 Hd1)) as N1. clear ds1 Hd1.
  pose proof (numeral_number _ _ (print_numeral (s64 (b_size b)) ltac:(unfold s64; change (2 ^ 64) with 18446744073709551616; change (2 ^ 63) with 9223372036854775808; lia))) as N2.
  pose proof (ls_written _ _ _ _ _ _ _ _ I) as Els. pose proof (sysv_range (written_bytes t)) as Hrg.
  destruct (unsigned_numeral (ls_checksum b) ltac:(rewrite Els; lia)) as (A1 & A2 & A3 & _).
  assert (N3 : number (pad_left "0" 5 (print_unsigned (ls_checksum b))) (ls_checksum b)) by (apply padded; auto; lia).
  assert (N4 : number (print_signed (b_Nfile b)) (b_Nfile b)). { apply numeral_number, print_numeral. rewrite (hl_Nfile _ _ HL). pose proof (hv_N _ _ _ _ _ _ _ _ I). pose proof (zlen_nonneg (t_sizes t)). lia. }
  assert (Hbase : unbroken (b_base b)).
  { rewrite (hv_base _ _ _ _ _ _ _ _ I). destruct Hbn as (_ & _ & Hb). pose proof (blank_free [] base Hb) as X. split; [|exact X]. unfold base, path_join. destruct (rev path); [exact Hblk|]. destruct (Byte.eqb _ _); destruct path; try discriminate; exact Hblk. }
  unfold awk_field. rewrite (awk_line _ _ Hf).
  2:{ repeat constructor; try (eapply number_unbroken; eassumption).
      - exact Hblk. - exact (blank_free path blk (proj2 (proj2 Hbn))). - rewrite Ed. apply type_unbroken, Hty. - rewrite Ed. apply type_unbroken, Hty. - apply Hbase. - apply Hbase. }
  cbn [pred nth]. unfold shell_ne. rewrite (scan_number _ _ N3).
  change (sysv_checksum (concat rows)) with (sysv_of (byte_sum (concat rows))). pose proof (sysv_range (byte_sum (concat rows))) as Hr2. destruct (unsigned_numeral (sysv_of (byte_sum (concat rows))) ltac:(lia)) as (B1 & B2 & B3 & _).
  rewrite (scan_number (print_unsigned (sysv_of (byte_sum (concat rows)))) (sysv_of (byte_sum (concat rows)))) by (exists false; eexists; repeat split; eauto; lia).
  rewrite Els, Z.eqb_sym. reflexivity.
Qed.

(* one byte *)
Lemma sysv_near s d : 0 < Z.abs d <= 255 -> sysv_of (s + d) <> sysv_of s.
Proof. unfold sysv_of. change (2 ^ 32) with 4294967296. change (2 ^ 16) with 65536. lia. Qed.
Lemma splice_sum w l (old new : byte) r q : 0 < w -> 0 <= q ->
  byte_sum (firstn (Z.to_nat w) (skipn (Z.to_nat (q * w)) (l ++ new :: r))) + (if q =? zlen l / w then 0 else b2z new - b2z old) =
  byte_sum (firstn (Z.to_nat w) (skipn (Z.to_nat (q * w)) (l ++ old :: r))) + (b2z new - b2z old).
Proof.
  intros Hw Hq. set (n := Z.to_nat (q * w)). set (m := Z.to_nat w).
  assert (En : Z.of_nat n = q * w) by (unfold n; rewrite Z2Nat.id; nia). assert (Em : Z.of_nat m = w) by (unfold m; lia). assert (El : zlen l = Z.of_nat (length l)) by reflexivity.
  destruct (le_lt_dec (n + m) (length l)) as [H1|H1]; [|destruct (le_lt_dec n (length l)) as [H2|H2]].
  - replace (q =? zlen l / w) with false.
    2:{ symmetry. apply Z.eqb_neq. intros ->. pose proof (Z.div_mod (zlen l) w ltac:(lia)). pose proof (Z.mod_pos_bound (zlen l) w Hw). nia. }
    rewrite !skipn_app, !firstn_app. replace (m - length (skipn n l))%nat with O by (rewrite skipn_length; lia). cbn [firstn]. rewrite !app_nil_r. lia.
  - replace (q =? zlen l / w) with true.
    2:{ symmetry. apply Z.eqb_eq. apply (Z.div_unique _ _ _ (zlen l - q * w)); [left; lia|lia]. }
    rewrite !skipn_app. replace (n - length l)%nat with O by lia. cbn [skipn]. rewrite !firstn_app. destruct (m - length (skipn n l))%nat as [|k] eqn:Ek; [rewrite skipn_length in Ek; lia|].
    cbn [firstn]. rewrite !byte_sum_app. unfold byte_sum. cbn [map]. rewrite !zs_cons. lia.
  - replace (q =? zlen l / w) with false.
    2:{ symmetry. apply Z.eqb_neq. intros ->. pose proof (Z.div_mod (zlen l) w ltac:(lia)). pose proof (Z.mod_pos_bound (zlen l) w Hw). nia. }
    rewrite !skipn_app. destruct (n - length l)%nat as [|k] eqn:Ek; [lia|]. cbn [skipn]. lia.
Qed.

Section Damage.
  Variables (e : env) (base dt : bytes) (nmemb B : Z) (t : table) (d : list entry) (f f2 : fs) (b : block).
  Hypothesis Hbn : block_name base.
  Let w := itemsize (e_me e) dt * nmemb.
  Let sizes := t_sizes t.
  Variables (i : nat) (l r : bytes) (old new : byte).
  Hypothesis F : fresh e base dt nmemb B t d f b.
  Hypothesis Hi : (i < length sizes)%nat.
  Hypothesis H1 : data_file f base i = Some (l ++ old :: r).
  Hypothesis H2 : data_file f2 base i = Some (l ++ new :: r).
  Hypothesis Hfr : forall p, p <> data_path base (Z.of_nat i) -> fs_get f2 p = fs_get f p.
  Hypothesis Hall : forall q, 0 <= q < t_size t -> stored_row f base sizes w q <> None.

  Definition damaged : table := mkTab sizes (fun q => stored_row f2 base sizes w q) (t_sum t).
  Let I := fr_inv _ _ _ _ _ _ _ _ _ F.
  Let HL := wb_layout _ _ _ _ (hv_wb _ _ _ _ _ _ _ _ I).

  Lemma other_file j : (j < length sizes)%nat -> j <> i -> data_file f2 base j = data_file f base j.
  Proof.
    intros Hj Hn. unfold data_file. rewrite Hfr; [reflexivity|]. intros E. apply Hn. pose proof (hv_N _ _ _ _ _ _ _ _ I) as HN. unfold zlen in HN. fold sizes in HN.
    apply data_path_inj in E; lia.
  Qed.
  Lemma same_len j c : (j < length sizes)%nat -> data_file f2 base j = Some c -> exists c1, data_file f base j = Some c1 /\ zlen c1 = zlen c.
  Proof.
    intros Hj E. destruct (Nat.eq_dec j i) as [->|Hn]; [|rewrite other_file in E by auto; eauto]. rewrite H2 in E. injection E as <-. eexists. split; [exact H1|]. unfold zlen. rewrite !app_length. reflexivity.
  Qed.
  Lemma still_stored q : stored_row f base sizes w q <> None -> stored_row f2 base sizes w q <> None.
  Proof.
    unfold stored_row. destruct (home sizes q) as [[j k]|] eqn:E; [|auto]. destruct (home_lt _ _ _ _ E) as [Hj _]. destruct (Nat.eq_dec j i) as [->|Hn]; [|rewrite (other_file j) by auto; auto].
    rewrite H1, H2. replace (zlen (l ++ new :: r)) with (zlen (l ++ old :: r)) by (unfold zlen; rewrite !app_length; reflexivity). destruct (_ <=? _); [discriminate|auto].
  Qed.
  Lemma damaged_fresh : fresh e base dt nmemb B damaged d f2 b.
  Proof.
    pose proof F as F'. destruct F' as [_ F2 F3 F4 F5 F6 F7 F8 F9].
    assert (Hh : fs_get f2 (header_path base) = fs_get f (header_path base)) by (apply Hfr; intros X; symmetry in X; revert X; apply data_not_header; lia).
    assert (Ha1 : fs_get f2 (attr1_path base) = fs_get f (attr1_path base)) by (apply Hfr; intros X; symmetry in X; revert X; apply data_not_attr1; lia).
    assert (Ha2 : fs_get f2 (attr2_path base) = fs_get f (attr2_path base)) by (apply Hfr; intros X; symmetry in X; revert X; apply data_not_attr2; lia).
    constructor; auto; [|rewrite Ha2; exact F5|rewrite Ha1; exact F6].
    constructor; cbn [damaged t_sizes t_row t_sum]; try apply I.
    - destruct (hv_dir _ _ _ _ _ _ _ _ I) as (D1 & D2 & D3 & D4). split; [|split; [congruence|split; [congruence|]]].
      + rewrite Hfr; [exact D1|]. intros X. unfold data_file in H1. rewrite <- X, D1 in H1. discriminate.
      + intros j Hj X. destruct (Z.eq_dec j (Z.of_nat i)) as [->|Hn]; [unfold data_file in H2; rewrite X in H2; discriminate|].
        assert (Hp : data_path base j <> data_path base (Z.of_nat i)); [|rewrite Hfr in X by exact Hp; revert X; apply D4; exact Hj].
        intros E. unfold data_file in H2. rewrite <- E, X in H2. discriminate.
    - intros j Hj. destruct (Nat.eq_dec j i) as [->|Hn]; [rewrite H2; discriminate|]. rewrite other_file by auto. apply (hv_files _ _ _ _ _ _ _ _ I). exact Hj.
    - intros j c Hj E. destruct (same_len j c Hj E) as (c1 & E1 & Ez). rewrite <- Ez. apply (hv_whole _ _ _ _ _ _ _ _ I j c1 Hj E1).
    - auto.
    - intros q v E. left. exact E.
    - intros D. rewrite Hh. apply I. exact D.
    - rewrite (open_attrs_frame e f f2 base Ha1 Ha2). apply I.
  Qed.
  Definition rows2 : list bytes := map (fun q => match stored_row f2 base sizes w (Z.of_nat q) with Some v => v | None => [] end) (seq 0 (Z.to_nat (t_size t))).
  Lemma rows2_shown : zlen rows2 = t_size t /\ shows_from w damaged 0 rows2.
  Proof.
    assert (Ht : 0 <= t_size t) by (apply zsum_nonneg, HL). unfold rows2. split; [unfold zlen; rewrite map_length, seq_length; lia|].
    assert (Hw : 0 < w) by apply (wb_wpos _ _ _ _ (hv_wb _ _ _ _ _ _ _ _ I)).
    split.
    - apply Forall_map, Forall_forall. intros q Hq. apply in_seq in Hq. pose proof (still_stored (Z.of_nat q) (Hall (Z.of_nat q) ltac:(lia))) as X.
      destruct (stored_row f2 base sizes w (Z.of_nat q)) as [v|] eqn:E; [|contradiction]. unfold stored_row in E. destruct (home sizes _) as [[j k]|] eqn:Eh; [|discriminate]. destruct (data_file f2 base j) as [c|]; [|discriminate].
      destruct (home_lt _ _ _ _ Eh) as [_ Hk]. destruct ((k + 1) * w <=? zlen c) eqn:El; [|discriminate]. injection E as <-. rewrite firstn_length, skipn_length. unfold zlen in El. nia.
    - intros j v E. left. cbn [damaged t_row]. rewrite nth_error_map in E. destruct (nth_error (seq 0 (Z.to_nat (t_size t))) j) as [q|] eqn:Eq; [|discriminate].
      assert (Hj : (j < Z.to_nat (t_size t))%nat) by (rewrite <- (seq_length (Z.to_nat (t_size t)) 0); apply nth_error_Some; congruence).
      pose proof (nth_error_nth _ _ O Eq) as Eq'. rewrite seq_nth in Eq' by exact Hj. cbn [option_map] in E. injection E as <-. subst q. rewrite Z.add_0_l. cbn [Nat.add].
      pose proof (still_stored (Z.of_nat j) (Hall (Z.of_nat j) ltac:(lia))) as X. destruct (stored_row f2 base sizes w (Z.of_nat j)); [reflexivity|contradiction].
  Qed.
  Lemma rows2_sum : byte_sum (concat rows2) =
    zsum (map (fun q => obytes (stored_row f base sizes w (Z.of_nat q))) (seq 0 (Z.to_nat (t_size t)))) + (b2z new - b2z old).
  Proof.
    assert (Hw : 0 < w) by apply (wb_wpos _ _ _ _ (hv_wb _ _ _ _ _ _ _ _ I)). assert (Hnn : Forall (fun s => 0 <= s) sizes) by apply HL.
    set (q0 := zlen l / w). set (r0 := first_row sizes i + q0).
    assert (Hr0 : home sizes r0 = Some (i, q0)).
    { apply home_spec; [exact Hnn|]. split; [exact Hi|]. split; [|reflexivity]. pose proof (zlen_nonneg l). split; [apply Z.div_pos; lia|].
      destruct (hv_whole _ _ _ _ _ _ _ _ I i _ Hi H1) as (k & Hk & Ek). fold w in Ek. fold sizes in Hk. unfold zlen in Ek. rewrite app_length in Ek. cbn [length] in Ek.
      apply Z.lt_le_trans with k; [|lia]. apply Z.div_lt_upper_bound; [exact Hw|]. unfold zlen. lia. }
    pose proof (home_range _ _ _ _ Hnn Hr0) as Hr1. change (zsum sizes) with (t_size t) in Hr1. unfold rows2. rewrite bs_concat, map_map.
    replace (b2z new - b2z old) with (zsum (map (fun q => if Nat.eqb q (Z.to_nat r0) then b2z new - b2z old else 0) (seq 0 (Z.to_nat (t_size t))))).
    2:{ rewrite (zs_one _ (Z.to_nat r0)); [rewrite Nat.eqb_refl; reflexivity|lia|intros j Hj; destruct (Nat.eqb_spec j (Z.to_nat r0)); [congruence|reflexivity]]. }
    rewrite <- zs_add. f_equal. apply map_ext_in. intros q Hq. apply in_seq in Hq. pose proof (Hall (Z.of_nat q) ltac:(lia)) as X. revert X. unfold stored_row.
    destruct (home sizes (Z.of_nat q)) as [[j k]|] eqn:Eh; [|congruence]. destruct (home_lt _ _ _ _ Eh) as [Hj Hk].
    destruct (Nat.eq_dec j i) as [->|Hn].
    - rewrite H1, H2. replace (zlen (l ++ new :: r)) with (zlen (l ++ old :: r)) by (unfold zlen; rewrite !app_length; reflexivity). destruct (_ <=? _); [|congruence]. intros _. cbn [obytes].
      pose proof (splice_sum w l old new r k Hw Hk) as Hsp. fold q0 in Hsp. assert (Hd : Z.of_nat q - r0 = k - q0) by (eapply home_diff; eassumption).
      destruct (Nat.eqb_spec q (Z.to_nat r0)) as [Eq|Nq]; destruct (k =? q0) eqn:Ek; lia.
    - rewrite (other_file j) by auto. destruct (data_file f base j) as [c|]; [|congruence]. destruct (_ <=? _); [|congruence]. intros _. cbn [obytes].
      destruct (Nat.eqb_spec q (Z.to_nat r0)) as [Eq|Nq]; [|lia]. exfalso. apply Hn. replace (Z.of_nat q) with r0 in Eh by lia. congruence.
  Qed.
End Damage.

Lemma check_damage e f f2 path blk dt nmemb t d b0 old new : let base := path_join path blk in let w := itemsize (e_me e) dt * nmemb in
  block_name base -> blk <> [] -> header_type dt -> 0 < nmemb < 2 ^ 31 -> w <= e_chunk e -> w < 2 ^ 31 -> dt_ok (e_me e) dt -> t_size t * nmemb < 2 ^ 63 -> w <= 2 ^ 28 ->
  big_file_open f path = Some path -> fresh e base dt nmemb (2 ^ 61) t d f b0 ->
  forall rows fuel, zlen rows = t_size t -> shows_from w t 0 rows -> t_size t < Z.of_nat fuel -> check_block e f path blk fuel = Ret false ->
  one_byte f f2 base (t_sizes t) old new -> old <> new -> check_block e f2 path blk fuel = Ret true.
Proof.
  intros base w Hbn Hblk Hty Hnm Hwc Hw31 Hdt Hsm Hw28 Ho F rows fuel Hz Hsh Hfu Hc (i & l & r & Hi & H1 & H2 & Hfr) Hne.
  pose proof (check_main e f path blk dt nmemb t d b0 Hbn Hblk Hty Hnm Hwc Hw31 Hdt Hsm Hw28 Ho F rows fuel Hz Hsh Hfu) as E. rewrite Hc in E. injection E as E.
  assert (Hst : forall j v, nth_error rows j = Some v -> stored_row f base (t_sizes t) w (Z.of_nat j) = Some v).
  { intros j v Ej. destruct Hsh as [_ Hs]. specialize (Hs j v Ej). rewrite Z.add_0_l in Hs. eapply inv_shows; [apply (fr_inv _ _ _ _ _ _ _ _ _ F)|exact Hs]. }
  assert (Hall : forall q, 0 <= q < t_size t -> stored_row f base (t_sizes t) w q <> None).
  { intros q Hq. destruct (nth_error rows (Z.to_nat q)) as [v|] eqn:Ev; [|apply nth_error_None in Ev; unfold zlen in Hz; lia]. apply Hst in Ev. rewrite Z2Nat.id in Ev by lia. congruence. }
  pose proof (damaged_fresh e base dt nmemb (2 ^ 61) t d f f2 b0 i l r old new F Hi H1 H2 Hfr Hall) as F2.
  destruct (rows2_shown e base dt nmemb (2 ^ 61) t d f f2 b0 i l r old new F Hi H1 H2 Hfr Hall) as [Hz2 Hs2].
  pose proof (rows2_sum e base dt nmemb (2 ^ 61) t d f f2 b0 i l r old new F Hi H1 H2 Hfr Hall) as Hsum.
  set (R2 := rows2 e base dt nmemb t f2) in *. clearbody R2.
  assert (Ho2 : big_file_open f2 path = Some path).
  { revert Ho. unfold big_file_open. destruct path as [|c p]; [auto|]. destruct (path_eqb (resolve (c :: p)) (data_path base (Z.of_nat i))) eqn:Ep.
    - apply path_eqb_eq in Ep. rewrite Ep. unfold data_file in H2. destruct (fs_get f2 _) as [[|c2]|]; try discriminate. destruct (fs_get f _); [auto|discriminate].
    - apply path_eqb_neq in Ep. rewrite (Hfr _ Ep). auto. }
  rewrite (check_main e f2 path blk dt nmemb (damaged e base dt nmemb t f2) d b0 Hbn Hblk Hty Hnm Hwc Hw31 Hdt Hsm Hw28 Ho2 F2 R2 fuel Hz2 Hs2 Hfu).
  f_equal. change (written_bytes (damaged e base dt nmemb t f2)) with (written_bytes t). apply eq_sym, negb_false_iff, Z.eqb_eq in E. rewrite E.
  apply negb_true_iff, Z.eqb_neq. change (sysv_of (byte_sum (concat rows)) <> sysv_of (byte_sum (concat R2))). rewrite Hsum.
  replace (zsum (map (fun q => obytes (stored_row f base (t_sizes t) (itemsize (e_me e) dt * nmemb) (Z.of_nat q))) (seq 0 (Z.to_nat (t_size t))))) with (byte_sum (concat rows)).
  - apply not_eq_sym. apply sysv_near. pose proof (b2z_range old). pose proof (b2z_range new). assert (b2z old <> b2z new) by (intros X; apply Hne, b2z_inj, X). lia.
  - rewrite bs_concat. f_equal. rewrite <- Hz. unfold zlen. rewrite Nat2Z.id. apply nth_error_ext. intros k. rewrite !nth_error_map. destruct (nth_error rows k) as [v|] eqn:Ev.
    + assert (Hk : (k < length rows)%nat) by (apply nth_error_Some; congruence). rewrite (nth_error_nth' _ O) by (rewrite seq_length; exact Hk). rewrite seq_nth by exact Hk. cbn [option_map]. f_equal.
      cbn [Nat.add]. pose proof (Hst k v Ev) as X. fold w. rewrite X. reflexivity.
    + apply nth_error_None in Ev. replace (nth_error (seq 0 (length rows)) k) with (@None nat); [reflexivity|]. symmetry. apply nth_error_None. rewrite seq_length. exact Ev.
Qed.

(* ------------------------------------------------------------------ bigfile-get-attr *)
Lemma until_cons c r : until_nul (c :: r) = if Byte.eqb c x00 then [] else c :: until_nul r.
Proof. reflexivity. Qed.
Lemma numeral_clean t z : numeral t z -> until_nul t = t.
Proof.
  intros H. apply numeral_number in H. destruct H as (neg & ds & -> & _ & Hd & _).
  assert (E : until_nul ds = ds).
  { induction Hd as [|c ds Hc Hd IH]; [reflexivity|]. rewrite until_cons. destruct (Byte.eqb c x00) eqn:E; [|rewrite IH; reflexivity]. apply byte_eqb_eq in E. subst c. unfold decimal_digit in Hc. change (b2z x00) with 0 in Hc. lia. }
  destruct neg; [|exact E]. rewrite until_cons. change (Byte.eqb "-" x00) with false. cbv iota. rewrite E. reflexivity.
Qed.
Lemma int_kind d w s : int_type d w s -> Byte.eqb (nth 1 d x00) "S" = false.
Proof. intros H; inversion H; subst; reflexivity. Qed.
Lemma load_eq m m' n : forall x, (forall y, x <= y < x + Z.of_nat n -> m' y = m y) -> load m' x n = load m x n.
Proof.
  induction n as [|n IH]; intros x H; [reflexivity|]. cbn [load]. rewrite H by lia. rewrite IH; [reflexivity|]. intros y Hy. apply H. lia.
Qed.
Lemma load_same m m' n : forall x, load m' x n = load m x n -> load m x n <> None -> forall y, x <= y < x + Z.of_nat n -> m' y = m y.
Proof.
  induction n as [|n IH]; intros x H Hn y Hy; [lia|]. cbn [load] in H, Hn. destruct (m x) as [c|] eqn:Ec; [|contradiction]. destruct (load m (x + 1) n) as [v|] eqn:Ev; [|contradiction].
  destruct (m' x) as [c'|] eqn:Ec'; [|discriminate]. destruct (load m' (x + 1) n) as [v'|] eqn:Ev'; [|discriminate]. injection H as -> ->.
  destruct (Z.eq_dec y x) as [->|]; [congruence|]. apply (IH (x + 1)); [congruence|congruence|lia].
Qed.
Section AttrText.
  Variables (e : env) (a : attr) (w : Z) (sg : bool).
  Let d := at_dtype a.
  Let isz := itemsize (e_me e) d.
  Hypothesis Hdt : dtype_normalize (e_me e) d = d.
  Hypothesis Hit : int_type d w sg.
  Lemma attr_text_int : forall vs i m, Forall (fun v => length v = Z.to_nat isz) vs -> i + zlen vs = at_nmemb a -> load m (at_data a + i * isz) (length (concat vs)) = Some (concat vs) ->
    exists s m', attr_text e m a i (length vs) = Ret (s, m') /\ spaced d w sg vs s /\ (dt_native (e_me e) d = true -> forall y, m' y = m y).
  Proof.
    pose proof (int_width (e_me e) d w sg Hit) as Hw. fold isz in Hw. assert (Hip : 0 < isz) by (inversion Hit; subst; lia).
    induction vs as [|v vs IH]; intros i m HF Hn Hl; [exists [], m; split; [reflexivity|]; split; [constructor|auto]|].
    pose proof (Forall_inv HF) as Hv. pose proof (Forall_inv_tail HF) as HF'. cbv beta in Hv. rewrite zlen_cons in Hn. pose proof (zlen_nonneg vs) as Hz.
    cbn [concat] in Hl. rewrite app_length in Hl. destruct (load_split _ _ _ _ _ Hl) as (Hl1 & Hl2). rewrite firstn_app, Nat.sub_diag, firstn_all, app_nil_r in Hl1. rewrite skipn_app, Nat.sub_diag, skipn_all in Hl2. cbn [skipn app] in Hl2.
    destruct (format_elem (e_fg e) (e_me e) m (at_data a + i * isz) d w sg v ltac:(rewrite Hdt; exact Hit) ltac:(fold isz; rewrite <- Hv; exact Hl1)) as (m1 & E1 & O1 & S1). rewrite Hdt in E1, S1. fold isz in O1, S1.
    assert (Hl3 : load m1 (at_data a + (i + 1) * isz) (length (concat vs)) = Some (concat vs)).
    { rewrite <- Hl2. replace (at_data a + (i + 1) * isz) with (at_data a + i * isz + Z.of_nat (length v)) by (rewrite Hv; lia). apply load_eq. intros y Hy. apply O1. rewrite Hv in Hy. lia. }
    destruct (IH (i + 1) m1 HF' ltac:(lia) Hl3) as (s & m2 & E2 & S2 & Q2). cbn [length attr_text]. fold d. fold isz. rewrite E1. cbn [bind]. rewrite E2. cbn [bind]. rewrite (int_kind _ _ _ Hit). cbn [negb]. rewrite andb_true_r.
    pose proof (print_numeral (int_value d w sg v) (int_small d w sg _ Hit (int_value_range d w sg v Hit ltac:(rewrite Hv; f_equal; lia)))) as Hnum. rewrite (numeral_clean _ _ Hnum).
    eexists _, m2. split; [reflexivity|]. split.
    - destruct vs as [|v2 vs].
      + inversion S2; subst. replace (i =? at_nmemb a - 1) with true by (change (zlen (@nil bytes)) with 0 in Hn; lia). cbn [negb app]. rewrite app_nil_r. apply sd_one. exact Hnum.
      + rewrite zlen_cons in *. pose proof (zlen_nonneg vs). replace (i =? at_nmemb a - 1) with false by lia. cbn [negb]. apply sd_more; [discriminate|exact Hnum|exact S2].
    - intros Hna y. rewrite Q2 by exact Hna. destruct (Z_lt_dec y (at_data a + i * isz)); [apply O1; lia|]. destruct (Z_le_dec (at_data a + i * isz + isz) y); [apply O1; lia|].
      apply (load_same m m1 (Z.to_nat isz) (at_data a + i * isz)); [|rewrite <- Hv, Hl1; discriminate|lia]. rewrite S1. unfold reorder. rewrite Hna. rewrite <- Hv. symmetry. exact Hl1.
  Qed.
End AttrText.

Lemma print_attr_int e s a name v w sg : rep1 (e_me e) s a (name, v) -> as_bufused s <= as_bufsize s -> int_type (dtype_normalize (e_me e) (av_dtype v)) w sg ->
  exists t m', value_text (e_me e) v t /\ (forall brief, print_attr e brief s a = Ret ((if brief then t ++ [x0a] else attr_line name v t), set_mem s m')) /\
    (dt_native (e_me e) (av_dtype v) = true -> forall y, m' y = as_mem s y).
Proof.
  intros R Hb Hit. pose proof R as [R1 R2 [R3 R3'] R4 _ _ _ R8 R9 _ _ _]. cbn [fst snd] in *. pose proof Hit as Hit'. rewrite R3 in Hit'. set (isz := itemsize (e_me e) (av_dtype v)) in *.
  assert (Hlen : length (av_data v) = (Z.to_nat isz * Z.to_nat (av_nmemb v))%nat) by (unfold zlen in R9; nia).
  set (vs := group (Z.to_nat isz) (Z.to_nat (av_nmemb v)) (av_data v)).
  assert (Ec : concat vs = av_data v) by (apply group_concat; lia). assert (Hvw : Forall (fun x => length x = Z.to_nat isz) vs) by (apply DtypeFacts.group_widths; exact Hlen).
  assert (Hvl : length vs = Z.to_nat (av_nmemb v)) by apply group_length.
  destruct (attr_text_int e a w sg ltac:(rewrite R1; exact R3) ltac:(rewrite R1; exact Hit') vs 0 (as_mem s) ltac:(rewrite R1; exact Hvw) ltac:(unfold zlen; rewrite Hvl, R2; lia)
    ltac:(rewrite Z.mul_0_l, Z.add_0_r, Ec; exact R8)) as (t & m' & E & S & Q).
  rewrite R1 in S, Q. exists t, m'. split; [|split; [|exact Q]].
  - exists w, sg, vs. split; [exact Hit|]. split; [auto|]. split; [unfold zlen; rewrite Hvl; lia|]. rewrite R3. split; [|exact S]. pose proof (int_width (e_me e) _ _ _ Hit') as Hw. fold isz in Hw.
    eapply Forall_impl; [|exact Hvw]. intros x Hx. cbv beta in Hx. rewrite Hx. lia.
  - intros brief. unfold print_attr. rewrite (rep_name _ _ _ _ R Hb). cbn [bind fst]. rewrite R2, <- Hvl, E. cbn [bind]. destruct brief; [reflexivity|].
    unfold attr_line, pad_right, pad_left. rewrite R1, <- !app_assoc. reflexivity.
Qed.
Lemma rep_ext me s s' a en : rep1 me s a en -> (forall y, as_mem s' y = as_mem s y) -> as_base s' = as_base s -> as_bufused s' = as_bufused s -> rep1 me s' a en.
Proof.
  intros [] H1 H2 H3. constructor; auto; try (rewrite H2, ?H3; assumption).
  - rewrite <- r_name. apply load_eq. auto.
  - rewrite <- r_data. apply load_eq. auto.
Qed.
Lemma F2_imp {A B} (P Q : A -> B -> Prop) l m : (forall x y, P x y -> Q x y) -> Forall2 P l m -> Forall2 Q l m.
Proof. intros H. induction 1; constructor; auto. Qed.
Lemma print_attrs_int e : forall l en s, Forall2 (rep1 (e_me e) s) l en -> as_bufused s <= as_bufsize s ->
  Forall (fun x => dt_native (e_me e) (av_dtype (snd x)) = true /\ exists w sg, int_type (dtype_normalize (e_me e) (av_dtype (snd x))) w sg) en ->
  exists t s', print_attrs e s l = Ret (t, s') /\ as_dirty s' = as_dirty s /\ attrs_text (e_me e) en t.
Proof.
  induction l as [|a l IH]; intros en s H Hb HF; inversion H as [|? [n v] ? en' R H' E1 E2]; subst; [exists [], s; split; [reflexivity|]; split; [reflexivity|constructor]|].
  pose proof (Forall_inv HF) as (Hna & w & sg & Hit). cbn [snd] in Hna, Hit. destruct (print_attr_int e s a n v w sg R Hb Hit) as (t1 & m1 & V1 & E1 & Q1). specialize (Q1 Hna). specialize (E1 false).
  destruct (IH en' (set_mem s m1)) as (t2 & s2 & E2 & D2 & V2).
  - eapply F2_imp; [|exact H']. intros x y Hxy. eapply rep_ext; [exact Hxy|exact Q1|reflexivity|reflexivity].
  - exact Hb.
  - eapply Forall_inv_tail. exact HF.
  - exists (attr_line n v t1 ++ t2), s2. cbn [print_attrs]. rewrite E1. cbn [bind]. rewrite E2. cbn [bind]. split; [reflexivity|]. split; [exact D2|]. constructor; assumption.
Qed.
Lemma cmp_before a : forall b, strcmp a b = Lt -> bytes_before a b.
Proof.
  induction a as [|x a IH]; intros [|y b] H; cbn [strcmp] in H; try discriminate; [constructor|]. destruct (b2z x ?= b2z y) eqn:E; try discriminate.
  - apply Z.compare_eq, b2z_inj in E. subst. apply bb_eq, IH, H.
  - apply bb_lt. exact E.
Qed.
Lemma close_clean e f b s : b_dirty b = false -> as_dirty s = false -> big_block_close e f (set_attrs b s) = Ret (0, f).
Proof. intros H1 H2. unfold big_block_close. rewrite (FrameFacts.clean_flush e f (set_attrs b s) H1 H2). reflexivity. Qed.

Lemma get_named e f path blk dt nmemb t d b0 : let base := path_join path blk in
  block_name base -> header_type dt -> 0 < nmemb < 2 ^ 31 -> big_file_open f path = Some path -> fresh e base dt nmemb (2 ^ 61) t d f b0 ->
  forall name,
  (forall v w sg, assoc name d = Some v -> int_type (dtype_normalize (e_me e) (av_dtype v)) w sg ->
     exists s, value_text (e_me e) v s /\ bigfile_get_attr e false f path blk [name] = Ret (0, s ++ [x0a], f) /\ bigfile_get_attr e true f path blk [name] = Ret (0, attr_line name v s, f)) /\
  (assoc name d = None -> forall long, bigfile_get_attr e long f path blk [name] = Ret (0, name ++ lit ", not attr:" ++ [x0a], f)).
Proof.
  intros base Hbn Hty Hnm Ho F name. destruct (live_open e path blk dt nmemb (2 ^ 61) t d f b0 Hbn Hty Hnm ltac:(lia) F) as (b & Eb & G).
  pose proof (fr_ok _ _ _ _ _ _ _ _ _ G) as A. pose proof (fr_clean _ _ _ _ _ _ _ _ _ G) as Hd. pose proof (hv_clean _ _ _ _ _ _ _ _ (fr_inv _ _ _ _ _ _ _ _ _ G)) as Ha.
  pose proof (proj2 (ok_used _ _ _ A)) as Hu. split.
  - intros v w sg Hv Hit. destruct (lookup_spec _ _ _ name A) as [(i & a & v' & _ & _ & El & _ & R & Ev)|(_ & _ & X)]; [|congruence]. rewrite Hv in Ev. injection Ev as <-.
    destruct (print_attr_int e _ a name v w sg R Hu Hit) as (s & m1 & V1 & E1 & _).
    exists s. split; [exact V1|]. unfold bigfile_get_attr. rewrite Ho, Eb. cbn [bind negb print_named]. rewrite El. cbn [bind]. rewrite !E1. cbn [bind]. rewrite !close_clean by auto. cbn [bind]. rewrite !app_nil_r. auto.
  - intros Hn long. destruct (lookup_spec _ _ _ name A) as [(i & a & v' & _ & _ & _ & _ & _ & Ev)|(_ & El & _)]; [congruence|].
    unfold bigfile_get_attr. rewrite Ho, Eb. cbn [bind print_named]. rewrite El. cbn [bind]. rewrite close_clean by auto. cbn [bind]. rewrite app_nil_r. reflexivity.
Qed.

Lemma savable_native me d n v : Forall (savable me) d -> In (n, v) d -> dt_native me (av_dtype v) = true.
Proof. intros H Hi. rewrite Forall_forall in H. apply H in Hi. apply Hi. Qed.
Lemma get_all e f path blk dt nmemb t d b0 : let base := path_join path blk in
  block_name base -> header_type dt -> 0 < nmemb < 2 ^ 31 -> big_file_open f path = Some path -> fresh e base dt nmemb (2 ^ 61) t d f b0 ->
  (forall n v, assoc n d = Some v -> exists w sg, int_type (dtype_normalize (e_me e) (av_dtype v)) w sg) ->
  exists L s, StronglySorted (fun x y => bytes_before (fst x) (fst y)) L /\ (forall n v, In (n, v) L <-> assoc n d = Some v) /\ attrs_text (e_me e) L s /\
    forall long, bigfile_get_attr e long f path blk [] = Ret (0, s, f).
Proof.
  intros base Hbn Hty Hnm Ho F HF. destruct (live_open e path blk dt nmemb (2 ^ 61) t d f b0 Hbn Hty Hnm ltac:(lia) F) as (b & Eb & G).
  pose proof (fr_ok _ _ _ _ _ _ _ _ _ G) as A. pose proof (fr_clean _ _ _ _ _ _ _ _ _ G) as Hd. pose proof (hv_clean _ _ _ _ _ _ _ _ (fr_inv _ _ _ _ _ _ _ _ _ G)) as Ha.
  pose proof (esorted_nodup _ (ok_sorted _ _ _ A)) as Hnd.
  assert (Hin : forall n v, In (n, v) d <-> assoc n d = Some v).
  { intros n v. split; [apply assoc_in; exact Hnd|]. clear. induction d as [|[k x] d IH]; intros H; [discriminate|]. cbn [assoc] in H. destruct (bytes_eqb n k) eqn:E; [apply bytes_eqb_eq in E; left; congruence|right; auto]. }
  destruct (print_attrs_int e (as_list (b_attrset b)) d (b_attrset b) (ok_rep _ _ _ A) (proj2 (ok_used _ _ _ A))) as (s & s' & E & D & V).
  { apply Forall_forall. intros [n v] Hx. split; [exact (savable_native _ _ _ _ (fr_sv _ _ _ _ _ _ _ _ _ G) Hx)|]. apply Hin in Hx. exact (HF n v Hx). }
  exists d, s. split; [|split; [exact Hin|split; [exact V|]]].
  - pose proof (ok_sorted _ _ _ A) as S. unfold esorted in S. clear -S. induction S as [|x l S IH Hf]; constructor; auto. eapply Forall_impl; [|exact Hf]. intros y Hy. apply cmp_before. exact Hy.
  - intros long. unfold bigfile_get_attr. rewrite Ho, Eb. cbn [bind]. rewrite E. cbn [bind]. rewrite close_clean by congruence. reflexivity.
Qed.

Lemma ok_ext me s s' m : as_ok me s m -> (forall y, as_mem s' y = as_mem s y) -> as_list s' = as_list s -> as_base s' = as_base s -> as_bufused s' = as_bufused s -> as_bufsize s' = as_bufsize s ->
  as_listsize s' = as_listsize s -> as_ok me s' m.
Proof.
  intros [] H1 H2 H3 H4 H5 H6. constructor; rewrite ?H2, ?H3, ?H4, ?H5, ?H6; auto.
  - eapply F2_imp; [|exact ok_rep]. intros x y Hxy. eapply rep_ext; eauto.
  - intros x. rewrite H1. apply ok_dom.
Qed.
Lemma print_names_int e m : forall names s, as_ok (e_me e) s m ->
  Forall (fun n => forall v, assoc n m = Some v -> dt_native (e_me e) (av_dtype v) = true /\ exists w sg, int_type (dtype_normalize (e_me e) (av_dtype v)) w sg) names ->
  exists t s', print_named e false s names = Ret (t, s') /\ as_dirty s' = as_dirty s /\ names_text (e_me e) (fun k => assoc k m) names t.
Proof.
  induction names as [|n names IH]; intros s A HF; [exists [], s; split; [reflexivity|]; split; [reflexivity|constructor]|].
  pose proof (Forall_inv HF) as Hn. pose proof (Forall_inv_tail HF) as HF'. cbv beta in Hn. cbn [print_named].
  destruct (lookup_spec _ _ _ n A) as [(i & a & v & _ & _ & El & _ & R & Ev)|(_ & El & Ev)]; rewrite El; cbn [bind].
  - destruct (Hn v Ev) as (Hna & w & sg & Hit). destruct (print_attr_int e _ a n v w sg R (proj2 (ok_used _ _ _ A)) Hit) as (t1 & m1 & V1 & E1 & Q1). rewrite E1. cbn [bind].
    destruct (IH (set_mem s m1)) as (t2 & s2 & E2 & D2 & V2); [eapply ok_ext; try exact A; try reflexivity; apply Q1, Hna|exact HF'|]. rewrite E2. cbn [bind].
    eexists _, s2. split; [reflexivity|]. split; [exact D2|]. apply nt_some; assumption.
  - destruct (IH s A HF') as (t2 & s2 & E2 & D2 & V2). rewrite E2. cbn [bind]. eexists _, s2. split; [reflexivity|]. split; [exact D2|]. rewrite <- !app_assoc. apply nt_none; assumption.
Qed.
Lemma get_several e f path blk dt nmemb t d b0 : let base := path_join path blk in
  block_name base -> header_type dt -> 0 < nmemb < 2 ^ 31 -> big_file_open f path = Some path -> fresh e base dt nmemb (2 ^ 61) t d f b0 ->
  forall names, (2 <= length names)%nat ->
  Forall (fun n => forall v, assoc n d = Some v -> exists w sg, int_type (dtype_normalize (e_me e) (av_dtype v)) w sg) names ->
  exists s, names_text (e_me e) (fun k => assoc k d) names s /\ forall long, bigfile_get_attr e long f path blk names = Ret (0, s, f).
Proof.
  intros base Hbn Hty Hnm Ho F names Hl HF. destruct (live_open e path blk dt nmemb (2 ^ 61) t d f b0 Hbn Hty Hnm ltac:(lia) F) as (b & Eb & G).
  pose proof (fr_ok _ _ _ _ _ _ _ _ _ G) as A. pose proof (fr_clean _ _ _ _ _ _ _ _ _ G) as Hd. pose proof (hv_clean _ _ _ _ _ _ _ _ (fr_inv _ _ _ _ _ _ _ _ _ G)) as Ha.
  assert (HF' : Forall (fun n => forall v, assoc n d = Some v -> dt_native (e_me e) (av_dtype v) = true /\ exists w sg, int_type (dtype_normalize (e_me e) (av_dtype v)) w sg) names).
  { eapply Forall_impl; [|exact HF]. cbv beta. intros n Hn v Hv. split; [|exact (Hn v Hv)]. apply (savable_native _ d n v (fr_sv _ _ _ _ _ _ _ _ _ G)).
    clear -Hv. induction d as [|[k x] d IH]; [discriminate|]. cbn [assoc] in Hv. destruct (bytes_eqb n k) eqn:E; [apply bytes_eqb_eq in E; left; congruence|right; auto]. }
  destruct (print_names_int e d names (b_attrset b) A HF') as (s & s' & E & D & V). exists s. split; [exact V|].
  intros long. unfold bigfile_get_attr. rewrite Ho, Eb. destruct names as [|n1 [|n2 names]]; [cbn in Hl; lia|cbn in Hl; lia|]. cbn [bind]. rewrite E. cbn [bind]. rewrite close_clean by congruence. reflexivity.
Qed.
Lemma names_text_ext me M M' : (forall k, M k = M' k) -> forall l s, names_text me M l s -> names_text me M' l s.
Proof. intros H l s. induction 1; [constructor|apply nt_some; auto; rewrite <- H; auto|apply nt_none; auto; rewrite <- H; auto]. Qed.
