(* Property C60: names of blocks through the serial and the collective
   interface. *)
From Coq.Strings Require Import Byte String.
From Coq Require Import List ZArith Lia Bool ZifyBool ZifyNat.
From Verif Require Import Base BaseFacts Dtype Cast Array FS Fmt Attr Block File Pack Spec AttrSpec OpenSpec PackSpec HistSpec Par Mpi MpiSpec
  FSFacts OpenFacts FileSpec FileFacts ParFacts CallFacts StepFacts SyncFacts VecFacts CollFacts SegFacts AggFacts LoopFacts MpiFacts LeadFacts AgreeFacts ExecFacts HandleFacts CHistFacts Ex.
Import ListNotations.
Open Scope Z_scope.
Local Open Scope out_scope.

(* ------------------------------------------------------------------ *)
(* The specification. *)

(* Two handles of the same block: equal but for the string that names the
   directory, and that leads to the same files. *)
Definition same_files (b1 b2 : block) : Prop :=
  header_path (b_base b1) = header_path (b_base b2) /\ attr1_path (b_base b1) = attr1_path (b_base b2) /\
  attr2_path (b_base b1) = attr2_path (b_base b2) /\ forall i, 0 <= i -> data_path (b_base b1) i = data_path (b_base b2) i.
Definition with_base (b : block) (base : bytes) : block :=
  mkBlock (b_dtype b) (b_nmemb b) base (b_size b) (b_fsize b) (b_foffset b) (b_fchecksum b) (b_Nfile b) (b_attrset b) (b_dirty b).
Definition alike (b1 b2 : block) : Prop := b2 = with_base b1 (b_base b2) /\ same_files b1 b2.
(* The names of the block that holds the attributes of the file itself. *)
Definition dot_name (s : bytes) : Prop := s = lit "." \/ exists q, s = q ++ lit "/.".

(* ------------------------------------------------------------------ *)
Lemma strdup_short s : (length s <= Z.to_nat 8192)%nat -> strdup s = s.
Proof. intros H. unfold strdup. apply firstn_all2. exact H. Qed.
Lemma join_length p s : (length (path_join p s) <= length p + length s + 1)%nat.
Proof. unfold path_join. destruct (rev p) as [|c r]; [lia|]. destruct (Byte.eqb c "/"); rewrite !app_length; cbn [length]; lia. Qed.

Lemma base_resolve bf bn : bf <> [] -> resolve (mpi_block_name bf bn) = resolve (path_join bf bn).
Proof.
  intros H. rewrite resolve_join_gen. unfold mpi_block_name. destruct bf as [|c bf]; [contradiction|]. unfold root.
  change ((c :: bf) ++ lit "/" ++ bn ++ lit "/") with ((c :: bf) ++ slash :: (bn ++ slash :: [])).
  rewrite !resolve_nil, !comps_app. change (comps []) with (@nil bytes). rewrite app_nil_r, <- !app_assoc. reflexivity.
Qed.
Lemma mpi_not_meta bf bn : is_meta (mpi_block_name bf bn) = false.
Proof.
  unfold is_meta, endswith, mpi_block_name.
  assert (E : bf ++ lit "/" ++ bn ++ lit "/" = (bf ++ lit "/" ++ bn) ++ lit "/") by (rewrite <- !app_assoc; reflexivity).
  rewrite E, rev_app_distr. apply bytes_eqb_neq. intros X. apply (f_equal (@rev byte)) in X. rewrite rev_app_distr in X. discriminate X.
Qed.
Lemma last_two (s : bytes) : s = [] \/ (exists c, s = [c]) \/ exists q a c, s = q ++ [a; c].
Proof.
  rewrite <- (rev_involutive s). destruct (rev s) as [|c [|a q]]; [left; reflexivity|right; left; exists c; reflexivity|].
  right. right. exists (rev q), a, c. cbn [rev]. rewrite <- app_assoc. reflexivity.
Qed.
Lemma join_ends p : p <> [] -> exists q, forall s, path_join p s = q ++ "/"%byte :: s.
Proof.
  intros H. unfold path_join. destruct (rev p) as [|c r] eqn:E; [apply (f_equal (@rev byte)) in E; rewrite rev_involutive in E; contradiction|].
  destruct (Byte.eqb c "/") eqn:Ec.
  - apply byte_eqb_eq in Ec. subst c. apply (f_equal (@rev byte)) in E. rewrite rev_involutive in E. cbn [rev] in E. exists (rev r). intros s. rewrite E, <- app_assoc. reflexivity.
  - exists p. reflexivity.
Qed.
Lemma serial_not_meta bf bn : bf <> [] -> ~ dot_name bn -> is_meta (path_join bf bn) = false.
Proof.
  intros Hb Hn. destruct (join_ends bf Hb) as [q ->]. unfold is_meta, endswith.
  assert (L : bytes_eqb (q ++ "/"%byte :: bn) (lit ".") = false).
  { apply bytes_eqb_neq. intros E. destruct q as [|x q]; [discriminate E|]. injection E as _ E. destruct q; discriminate E. }
  rewrite L, orb_false_r. change (rev (lit "/.")) with ["."; "/"]%byte. rewrite rev_app_distr.
  destruct (last_two bn) as [->|[[c ->]|(s & a & c & ->)]].
  - reflexivity.
  - cbn [rev app endswith_rev]. destruct (Byte.eqb c ".") eqn:E; [|reflexivity]. apply byte_eqb_eq in E. subst. exfalso. apply Hn. left. reflexivity.
  - cbn [rev]. rewrite rev_app_distr. cbn [rev app endswith_rev]. destruct (Byte.eqb c ".") eqn:E; [|reflexivity].
    destruct (Byte.eqb a "/") eqn:E2; [|reflexivity]. apply byte_eqb_eq in E, E2. subst. exfalso. apply Hn. right. exists s. reflexivity.
Qed.
Lemma blank_app a b : has_blank (a ++ b) = has_blank a || has_blank b.
Proof. apply existsb_app. Qed.
Lemma blank_same bf bn : bf <> [] -> has_blank (mpi_block_name bf bn) = has_blank (path_join bf bn).
Proof.
  intros H. unfold mpi_block_name. rewrite !blank_app. change (has_blank (lit "/")) with false. rewrite !orb_false_r. cbn [orb].
  unfold path_join. destruct (rev bf) as [|c r] eqn:E; [apply (f_equal (@rev byte)) in E; rewrite rev_involutive in E; contradiction|].
  destruct (Byte.eqb c "/"); rewrite !blank_app; reflexivity.
Qed.

(* the paths depend on the directory only *)
Section Place.
  Variables (s1 s2 : bytes).
  Hypothesis HR : resolve s1 = resolve s2.
  Lemma place_header : header_path s1 = header_path s2.
  Proof. unfold header_path. rewrite !resolve_join, HR by exact header_plain. reflexivity. Qed.
  Lemma place_attr1 : attr1_path s1 = attr1_path s2.
  Proof. unfold attr1_path. rewrite !resolve_join, HR by exact attr_plain. reflexivity. Qed.
  Lemma place_attr2 : attr2_path s1 = attr2_path s2.
  Proof. unfold attr2_path. rewrite !resolve_join, HR by exact attr2_plain. reflexivity. Qed.
  Lemma place_data i : 0 <= i -> data_path s1 i = data_path s2 i.
  Proof. intros H. unfold data_path. rewrite !resolve_join, HR by (apply print_06X_plain; exact H). reflexivity. Qed.
  Lemma place_truncate : forall n f i, 0 <= i -> truncate_files f s1 i n = truncate_files f s2 i n.
  Proof. induction n as [|n IH]; intros f i Hi; [reflexivity|]. cbn [truncate_files]. rewrite place_data by exact Hi. destruct (fopen_w f (data_path s2 i)); [|reflexivity]. apply IH. lia. Qed.

  Hypothesis (L1 : (length s1 <= Z.to_nat 8192)%nat) (L2 : (length s2 <= Z.to_nat 8192)%nat).
  Hypothesis (M1 : is_meta s1 = false) (M2 : is_meta s2 = false).
  Definition moved (ob : option block) : option block := option_map (fun b => with_base b s2) ob.
  Lemma place_open e f : big_block_open e f s2 = (ob <- big_block_open e f s1 ;; Ret (moved ob)).
  Proof.
    unfold big_block_open. rewrite !strdup_short by assumption. rewrite <- place_attr1, <- place_attr2, <- place_header, M1, M2.
    destruct (attrset_read_v1 _ _ _ _) as [[rc1 a1]| |]; cbn [bind]; [|reflexivity|reflexivity].
    destruct (negb (rc1 =? 0)); [reflexivity|].
    destruct (fopen_r f (attr2_path s1)) as [[c|]|]; [|reflexivity|].
    all: destruct (attrset_read_v2 _ _ _ _) as [[rc2 a2]| |]; cbn [bind]; [|reflexivity|reflexivity];
      destruct (negb (rc2 =? 0)); [reflexivity|]; destruct (fopen_r f (header_path s1)) as [[c'|]|]; [|reflexivity|reflexivity];
      destruct (parse_header c') as [[h|]| |]; reflexivity.
  Qed.
  Lemma place_image b : header_image (with_base b s2) = header_image b.
  Proof.
    unfold header_image. change (b_Nfile (with_base b s2)) with (b_Nfile b).
    assert (H : forall n i, header_lines (with_base b s2) i n = header_lines b i n) by (induction n as [|n IH]; intros i; [reflexivity|]; cbn [header_lines]; change (b_fsize (with_base b s2)) with (b_fsize b); change (b_fchecksum (with_base b s2)) with (b_fchecksum b); rewrite IH; reflexivity).
    rewrite H. reflexivity.
  Qed.
  Lemma place_flush e f b : b_base b = s1 -> big_block_flush e f (with_base b s2) = ('(rc, f', b') <- big_block_flush e f b ;; Ret (rc, f', with_base b' s2)).
  Proof.
    intros Hb. unfold big_block_flush. change (b_base (with_base b s2)) with s2. change (b_dirty (with_base b s2)) with (b_dirty b). rewrite Hb, place_image.
    rewrite <- place_header.
    assert (A : forall rc1 f1 b1, b_base b1 = s1 ->
      (if negb (rc1 =? 0) then Ret (rc1, f1, with_base b1 s2) else
       if as_dirty (b_attrset (with_base b1 s2)) then
         match fopen_w f1 (attr2_path (b_base (with_base b1 s2))) with
         | None => Ret (-1, f1, set_attrs (with_base b1 s2) (set_dirty (b_attrset (with_base b1 s2)) false))
         | Some f2 => '(img, s') <- attr_lines (e_fg e) (e_me e) (b_attrset (with_base b1 s2)) (as_list (b_attrset (with_base b1 s2))) ;;
             Ret (0, fs_set f2 (attr2_path (b_base (with_base b1 s2))) (File img), set_attrs (with_base b1 s2) (set_dirty s' false))
         end
       else Ret (0, f1, with_base b1 s2)) =
      ('(rc, f', b') <- (if negb (rc1 =? 0) then Ret (rc1, f1, b1) else
       if as_dirty (b_attrset b1) then
         match fopen_w f1 (attr2_path (b_base b1)) with
         | None => Ret (-1, f1, set_attrs b1 (set_dirty (b_attrset b1) false))
         | Some f2 => '(img, s') <- attr_lines (e_fg e) (e_me e) (b_attrset b1) (as_list (b_attrset b1)) ;;
             Ret (0, fs_set f2 (attr2_path (b_base b1)) (File img), set_attrs b1 (set_dirty s' false))
         end
       else Ret (0, f1, b1)) ;; Ret (rc, f', with_base b' s2))).
    { intros rc1 f1 b1 E1. change (b_attrset (with_base b1 s2)) with (b_attrset b1). change (b_base (with_base b1 s2)) with s2. rewrite E1, <- place_attr2.
      destruct (negb (rc1 =? 0)); [reflexivity|]. destruct (as_dirty (b_attrset b1)); [|reflexivity].
      destruct (fopen_w f1 (attr2_path s1)); [|reflexivity]. destruct (attr_lines _ _ _ _) as [[img s']| |]; reflexivity. }
    destruct (b_dirty b).
    - destruct (fopen_w f (header_path s1)) as [f'|]; [|exact (A (-1) f b Hb)].
      destruct (header_image b) as [img| |]; cbn [bind]; [|reflexivity|reflexivity].
      apply (A 0 (fs_set f' (header_path s1) (File img)) (set_bdirty b false)). exact Hb.
    - exact (A 0 f b Hb).
  Qed.
  Lemma flush_base e f b rc f' b' : big_block_flush e f b = Ret (rc, f', b') -> b_base b' = b_base b.
  Proof.
    unfold big_block_flush. intros H.
    destruct (b_dirty b); [destruct (fopen_w f (header_path (b_base b))) as [g|]; [destruct (header_image b) as [img| |]; cbn [bind] in H; [|discriminate|discriminate]|cbn [bind] in H]|cbn [bind] in H].
    all: cbn [Z.eqb negb b_attrset set_bdirty] in H.
    all: try (injection H as <- <- <-; reflexivity).
    all: destruct (as_dirty (b_attrset b)); [|injection H as <- <- <-; reflexivity].
    all: match type of H with context [fopen_w ?x ?y] => destruct (fopen_w x y) end; [|injection H as <- <- <-; reflexivity].
    all: match type of H with context [attr_lines ?x ?y ?z ?t] => destruct (attr_lines x y z t) as [[img' s']| |] end; cbn [bind] in H; [|discriminate|discriminate].
    all: injection H as <- <- <-; reflexivity.
  Qed.
  Lemma internal_base e f dtype nmemb Nfile fsize f' b : create_internal e f s1 dtype nmemb Nfile fsize = Ret (f', Some b) -> b_base b = s1.
  Proof.
    unfold create_internal. rewrite strdup_short by assumption. destruct (has_blank s1); [discriminate|]. rewrite M1.
    destruct (match dtype with None => _ | Some _ => _ end) as [[dt nf] fsz]. destruct (nf <? -1); [discriminate|]. destruct ((nf <? 0) || (zlen fsz <? nf)); [discriminate|]. cbv zeta.
    match goal with |- context [big_block_flush e f ?x] => destruct (big_block_flush e f x) as [[[rc g] b']| |] eqn:E end; cbn [bind]; [|discriminate|discriminate].
    destruct (negb (rc =? 0)); [discriminate|]. intros [= <- <-]. exact (flush_base _ _ _ _ _ _ E).
  Qed.
  Hypothesis BL : has_blank s1 = has_blank s2.
  Lemma place_create_internal e f dtype nmemb Nfile fsize :
    create_internal e f s2 dtype nmemb Nfile fsize = ('(f', ob) <- create_internal e f s1 dtype nmemb Nfile fsize ;; Ret (f', moved ob)).
  Proof.
    unfold create_internal. rewrite !strdup_short by assumption. rewrite BL, M1, M2. destruct (has_blank s2); [reflexivity|].
    destruct (match dtype with None => _ | Some _ => _ end) as [[dt nf] fsz]. destruct (nf <? -1); [reflexivity|]. destruct ((nf <? 0) || (zlen fsz <? nf)); [reflexivity|].
    cbv zeta. set (b0 := mkBlock _ _ s1 _ _ _ _ _ _ _). 
    match goal with |- context [big_block_flush e f (mkBlock ?a ?b s2 ?c ?d ?g ?h ?i ?j ?k)] => change (mkBlock a b s2 c d g h i j k) with (with_base b0 s2) end.
    rewrite place_flush by reflexivity.
    destruct (big_block_flush e f b0) as [[[rc f'] b']| |]; cbn [bind]; [|reflexivity|reflexivity]. destruct (negb (rc =? 0)); reflexivity.
  Qed.
  Lemma place_create e f dtype nmemb Nfile fsize :
    big_block_create e f s2 dtype nmemb Nfile fsize = ('(f', ob) <- big_block_create e f s1 dtype nmemb Nfile fsize ;; Ret (f', moved ob)).
  Proof.
    unfold big_block_create. rewrite place_create_internal. destruct (create_internal e f s1 dtype nmemb Nfile fsize) as [[f1 [b|]]| |] eqn:E; cbn [bind moved option_map]; [|reflexivity|reflexivity|reflexivity].
    change (b_base (with_base b s2)) with s2. change (b_Nfile (with_base b s2)) with (b_Nfile b). rewrite (internal_base _ _ _ _ _ _ _ _ E), place_truncate by lia.
    destruct (truncate_files f1 s2 0 (Z.to_nat (b_Nfile b))) as [rc f2]. destruct (negb (rc =? 0)); reflexivity.
  Qed.
  Lemma create_base e f dtype nmemb Nfile fsize f' b : big_block_create e f s1 dtype nmemb Nfile fsize = Ret (f', Some b) -> b_base b = s1.
  Proof.
    unfold big_block_create. destruct (create_internal e f s1 dtype nmemb Nfile fsize) as [[f1 [b1|]]| |] eqn:E; cbn [bind]; [|discriminate|discriminate|discriminate].
    destruct (truncate_files f1 (b_base b1) 0 (Z.to_nat (b_Nfile b1))) as [rc f2]. destruct (negb (rc =? 0)); [discriminate|]. intros [= <- <-]. exact (internal_base _ _ _ _ _ _ _ _ E).
  Qed.
End Place.
Lemma same_resolve b1 b2 : resolve (b_base b1) = resolve (b_base b2) -> same_files b1 b2.
Proof. intros H. repeat split; [apply place_header|apply place_attr1|apply place_attr2|intros i Hi; apply place_data]; assumption. Qed.

Lemma name_length bf bn : (length bf + length bn + 2 <= Z.to_nat 8192)%nat ->
  (length (path_join bf bn) <= Z.to_nat 8192)%nat /\ (length (mpi_block_name bf bn) <= Z.to_nat 8192)%nat.
Proof.
  intros H. pose proof (join_length bf bn). split; [lia|]. unfold mpi_block_name. rewrite !app_length. change (length (lit "/")) with 1%nat. lia.
Qed.
Lemma nul_free_app a b : nul_free a -> nul_free b -> nul_free (a ++ b).
Proof. unfold nul_free. intros A B H. apply in_app_or in H. destruct H; auto. Qed.
Lemma moved_fits me b s : transferable me b -> nul_free s -> (length s <= Z.to_nat 8192)%nat -> transferable me (with_base b s).
Proof. intros [[] HA] H1 H2. split; [constructor; cbn [b_dtype b_nmemb b_base b_size b_Nfile b_fsize b_foffset b_fchecksum with_base]; auto|exact HA]. Qed.

Section Ranks.
  Variables (N : nat) (me : endian) (junk : nat -> nat -> nat -> byte) (nbase : nat -> Z) (e : nat -> env).
  Hypothesis (HN : (0 < N)%nat) (Hme : forall i, (i < N)%nat -> e_me (e i) = me).
  Variables (bf bn : bytes).
  Hypothesis (Hbf : bf <> []) (HL : (length bf + length bn + 2 <= Z.to_nat 8192)%nat) (Hdot : ~ dot_name bn).
  Hypothesis (Nbf : nul_free bf) (Nbn : nul_free bn).
  Let s1 := path_join bf bn.
  Let s2 := mpi_block_name bf bn.
  Lemma s2_nul : nul_free s2.
  Proof. apply nul_free_app; [exact Nbf|]. assert (S : nul_free (lit "/")) by (vm_compute; intuition discriminate). apply nul_free_app; [exact S|]. apply nul_free_app; [exact Nbn|exact S]. Qed.
  Lemma s12 : resolve s1 = resolve s2. Proof. symmetry. apply base_resolve. exact Hbf. Qed.
  Lemma open_base f b : big_block_open (e 0%nat) f s1 = Ret (Some b) -> b_base b = s1.
  Proof.
    unfold big_block_open. rewrite strdup_short by (apply name_length; exact HL). 
    pose proof (serial_not_meta bf bn Hbf Hdot : is_meta s1 = false) as M. rewrite M. cbv zeta.
    destruct (attrset_read_v1 _ _ _ _) as [[rc1 a1]| |]; cbn [bind]; [|discriminate|discriminate]. destruct (negb (rc1 =? 0)); [discriminate|].
    destruct (fopen_r f (attr2_path s1)) as [[c|]|]; [|discriminate|].
    all: destruct (attrset_read_v2 _ _ _ _) as [[rc2 a2]| |]; cbn [bind]; [|discriminate|discriminate];
      destruct (negb (rc2 =? 0)); [discriminate|]; destruct (fopen_r f (header_path s1)) as [[c'|]|]; [|discriminate|discriminate];
      destruct (parse_header c') as [[h|]| |]; cbn [bind]; try discriminate; intros [= <-]; reflexivity.
  Qed.
  Lemma alike_moved b : b_base b = s1 -> alike b (with_base b s2).
  Proof. intros H. split; [reflexivity|]. apply same_resolve. rewrite H. exact s12. Qed.

  Lemma open_same f ob : big_file_open_block (e 0%nat) f bf bn = Ret ob -> (forall b, ob = Some b -> transferable me b) ->
    ends N (fun res s => g_fs s = f /\ match ob with
        | Some b => exists b2, alike b b2 /\ forall i, (i < N)%nat -> exists b', res i = (0, b') /\ handed b2 i b'
        | None => forall i, (i < N)%nat -> fst (res i) = -1
        end)
      (launch (fun i => whole (mpi_open_block (junk i) (e i) (world N) i (nbase i) bf bn)) f).
  Proof.
    intros E HT. unfold big_file_open_block in E. fold s1 in E. destruct (name_length bf bn HL) as [L1 L2].
    assert (E2 : big_block_open (e 0%nat) f s2 = Ret (moved s2 ob)).
    { rewrite (place_open s1 s2 s12 L1 L2 (serial_not_meta bf bn Hbf Hdot) (mpi_not_meta bf bn)), E. reflexivity. }
    eapply ends_mono; [|apply (CHistFacts.coll_open N me junk nbase e HN Hme s2 f (moved s2 ob) E2)].
    - intros res s (G & R). split; [exact G|]. destruct ob as [b|]; [|exact R]. exists (with_base b s2). split; [apply alike_moved; eapply open_base; exact E|exact R].
    - intros b' Hb. destruct ob as [b|]; [|discriminate]. injection Hb as <-. apply moved_fits; [apply HT; reflexivity|exact s2_nul|exact L2].
  Qed.

  Lemma mksubdir_rc f rc f' : mksubdir_r f bf bn = (rc, f') -> rc = 0 \/ rc = -1.
  Proof.
    unfold mksubdir_r. destruct (mksubdir_loop f bf [] (strdup bn)) as [r f1]. destruct (r =? 0); [|intros [= <- <-]; auto].
    unfold big_file_mkdir. destruct (mkdir_str f1 _); intros [= <- <-]; auto.
  Qed.
  Lemma create_same dtype nmemb Nfile fsize f f1 ob : create_fits bf dtype nmemb Nfile fsize ->
    big_file_create_block (e 0%nat) f bf bn dtype nmemb Nfile fsize = Ret (f1, ob) ->
    ends N (fun res s => match ob with
        | Some b => fs_eq f1 (g_fs s) /\ exists b2, alike b b2 /\ forall i, (i < N)%nat -> exists b', res i = (0, b') /\ handed b2 i b'
        | None => forall i, (i < N)%nat -> fst (res i) = -1
        end)
      (launch (fun i => whole (mpi_create_block (junk i) (e i) (world N) i (nbase i) bf bn dtype nmemb Nfile fsize)) f).
  Proof.
    intros HF E. unfold big_file_create_block in E. fold s1 in E. destruct (name_length bf bn HL) as [L1 L2].
    destruct (mksubdir_r f bf bn) as [rc f0] eqn:ED.
    apply (ends_leads N _ f (fun res g => match ob with
        | Some b => fs_eq f1 g /\ exists b2, alike b b2 /\ forall i, (i < N)%nat -> exists b', res i = (0, b') /\ handed b2 i b'
        | None => forall i, (i < N)%nat -> fst (res i) = -1 end)).
    assert (Eop : op_mksubdir bf bn f = Ret (VZs [rc], f0)) by (unfold op_mksubdir; rewrite ED; reflexivity).
    unfold mpi_create_block.
    apply leads_does with (fun l res f' => (forall i o, In (i, o) l -> i = 0%nat) /\ f' = f0 /\ forall i, (i < N)%nat -> res i = if (i =? 0)%nat then rc else 0).
    { apply (does_root N) with (r := 0%nat) (d := fun _ => 0); [exact HN|reflexivity|intros i Hi _; rewrite (rank_world N HN) by exact Hi; destruct i; reflexivity|reflexivity|].
      apply does_bind with (fun l res f' => (forall i o, In (i, o) l -> i = 0%nat) /\ f' = f0 /\ res 0%nat = VZs [rc]).
      - apply does_io with (r := VZs [rc]) (f1 := f0); [exact HN|exact Eop|]. split; [intros i o [[= <- <-]|[]]; reflexivity|auto].
      - intros l res f' (Hl & -> & R). apply does_ext with (fun _ => mret rc); [intros i Hi Ei; apply Nat.eqb_eq in Ei; subst i; rewrite R; reflexivity|].
        apply does_ret. rewrite app_nil_r. split; [exact Hl|]. split; [reflexivity|]. intros i Hi. destruct i; reflexivity. }
    intros l res f' (Hl & -> & R).
    apply (lead_agree_eq N HN _ res); [exact Hl|]. intros rt HR.
    assert (Rt : forall i, (i < N)%nat -> rt i = rc) by (intros i Hi; rewrite HR by exact Hi; apply (verdict_root N me junk e nbase HN Hme); exact R).
    destruct (Z.eqb_spec rc 0) as [->|Hrc].
    - apply leads_ext with (fun i => mpi_create (junk i) (e i) (world N) i (nbase i) s2 dtype nmemb Nfile fsize); [intros i Hi; rewrite Rt by exact Hi; reflexivity|].
      pose proof (place_create s1 s2 s12 L1 L2 (serial_not_meta bf bn Hbf Hdot) (mpi_not_meta bf bn) (eq_sym (blank_same bf bn Hbf)) (e 0%nat) f0 dtype nmemb Nfile fsize) as E2. rewrite E in E2. cbn [bind] in E2.
      eapply leads_mono; [|apply (lead_create N me junk e nbase HN Hme s2 dtype nmemb Nfile fsize f0 f1 (moved s2 ob))].
      + intros rs g. unfold handle_result. destruct ob as [b|]; [|auto]. cbn [moved option_map]. intros [G R']. split; [exact G|]. exists (with_base b s2). split; [|exact R'].
        apply alike_moved. exact (create_base s1 L1 (serial_not_meta bf bn Hbf Hdot) _ _ _ _ _ _ _ _ E).
      + destruct HF as (_ & HF). split; [exact s2_nul|exact HF].
      + exact E2.
    - injection E as <- <-. apply leads_ext with (fun i => mret (rc, no_block)).
      { intros i Hi. rewrite Rt by exact Hi. destruct (Z.eqb_spec rc 0); [contradiction|]. reflexivity. }
      apply (leads_ret N (fun _ => (rc, no_block))). intros i Hi. cbn [fst]. destruct (mksubdir_rc _ _ _ ED); [contradiction|assumption].
  Qed.
End Ranks.

(* ------------------------------------------------------------------ C60 *)
(* In full: for every file bf and every block name bn the collective calls
   open and create the block that the serial calls open and create. Proved for
   all names but those of the attribute-only block of the file itself. The
   length limits come from _strdup, which cuts names at 8192 characters. *)
Theorem C60_open_partial : forall N me junk nbase e, (0 < N)%nat -> (forall i, (i < N)%nat -> e_me (e i) = me) ->
  forall bf bn, bf <> [] -> (length bf + length bn + 2 <= Z.to_nat 8192)%nat -> ~ dot_name bn -> nul_free bf -> nul_free bn ->
  forall f ob, big_file_open_block (e 0%nat) f bf bn = Ret ob -> (forall b, ob = Some b -> transferable me b) ->
  ends N (fun res s => g_fs s = f /\ match ob with
      | Some b => exists b2, alike b b2 /\ forall i, (i < N)%nat -> exists b', res i = (0, b') /\ handed b2 i b'
      | None => forall i, (i < N)%nat -> fst (res i) = -1
      end)
    (launch (fun i => whole (mpi_open_block (junk i) (e i) (world N) i (nbase i) bf bn)) f).
Proof. exact open_same. Qed.
Theorem C60_create_partial : forall N me junk nbase e, (0 < N)%nat -> (forall i, (i < N)%nat -> e_me (e i) = me) ->
  forall bf bn, bf <> [] -> (length bf + length bn + 2 <= Z.to_nat 8192)%nat -> ~ dot_name bn -> nul_free bf -> nul_free bn ->
  forall dtype nmemb Nfile fsize f f1 ob, create_fits bf dtype nmemb Nfile fsize ->
  big_file_create_block (e 0%nat) f bf bn dtype nmemb Nfile fsize = Ret (f1, ob) ->
  ends N (fun res s => match ob with
      | Some b => fs_eq f1 (g_fs s) /\ exists b2, alike b b2 /\ forall i, (i < N)%nat -> exists b', res i = (0, b') /\ handed b2 i b'
      | None => forall i, (i < N)%nat -> fst (res i) = -1
      end)
    (launch (fun i => whole (mpi_create_block (junk i) (e i) (world N) i (nbase i) bf bn dtype nmemb Nfile fsize)) f).
Proof. exact create_same. Qed.

(* A block in a subdirectory, with a name that is not in its shortest form. *)
Definition ex_nm : fs * option block := match big_file_create_block ex_e [([lit "d"], Dir)] (lit "d") (lit "gas//Pos") (Some (lit "f8")) 3 2 [4; 5] with Ret x => x | _ => ([], None) end.
Example C60_example : exists f b, big_file_create_block ex_e [([lit "d"], Dir)] (lit "d") (lit "gas//Pos") (Some (lit "f8")) 3 2 [4; 5] = Ret (f, Some b) /\
  create_fits (lit "d") (Some (lit "f8")) 3 2 [4; 5] /\ ~ dot_name (lit "gas//Pos") /\
  mpi_block_name (lit "d") (lit "gas//Pos") <> b_base b /\ fs_get f [lit "d"; lit "gas"; lit "Pos"; lit "header"] <> None /\
  exists b', big_file_open_block ex_e f (lit "d") (lit "gas//Pos") = Ret (Some b') /\ b_size b' = 9.
Proof.
  pose (f := fst ex_nm). pose (b := match snd ex_nm with Some b => b | None => no_block end). exists f, b.
  split; [vm_compute; reflexivity|]. split.
  { split; [vm_compute; intuition discriminate|]. split; [lia|]. split; [lia|]. split; [repeat constructor; lia|vm_compute; intuition discriminate]. }
  split. { intros [H|[q H]]; [discriminate H|]. apply (f_equal (@rev byte)) in H. rewrite rev_app_distr in H. discriminate H. }
  split; [vm_compute; discriminate|]. split; [vm_compute; discriminate|]. eexists. split; [vm_compute; reflexivity|reflexivity].
Qed.

(* A file has an attribute. The serial interface finds it in the block ".";
   through the collective interface that block cannot be opened. *)
Definition ex_dot : fs := [([lit "d"], Dir); ([lit "d"; lit "attr-v2"], File (lit "BoxSize <i4 1 01000000 #HUMANE [ 1 ]" ++ [x0a]))].
Theorem C60_refuted : exists f bf b, big_file_open_block ex_e f bf (lit ".") = Ret (Some b) /\ attr_names (b_attrset b) = Ret [lit "BoxSize"] /\
  forall N junk nbase, (0 < N)%nat ->
  ends N (fun res s => forall i, (i < N)%nat -> fst (res i) = -1)
    (launch (fun i => whole (mpi_open_block (junk i) ex_e (world N) i (nbase i) bf (lit "."))) f).
Proof.
  exists ex_dot, (lit "d").
  exists (match big_file_open_block ex_e ex_dot (lit "d") (lit ".") with Ret (Some b) => b | _ => no_block end).
  split; [vm_compute; reflexivity|]. split; [vm_compute; reflexivity|]. intros N junk nbase HN.
  eapply ends_mono; [|apply (coll_open N LE junk nbase (fun _ => ex_e) HN (fun _ _ => eq_refl) (mpi_block_name (lit "d") (lit ".")) ex_dot None); [vm_compute; reflexivity|discriminate]].
  intros res s [_ R]. exact R.
Qed.

Print Assumptions C60_open_partial.
Print Assumptions C60_create_partial.
Print Assumptions C60_refuted.
