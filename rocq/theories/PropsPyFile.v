(* C81: File of the Python package. *)
From Coq.Strings Require Import Byte String.
From Coq Require Import List ZArith Lia Bool.
From Verif Require Import Base BaseFacts Dtype Cast Array FS Fmt Attr Block File Spec AttrSpec OpenSpec HistSpec FileSpec Ex PropsHeader PropsHist
  Py ListFacts PyFile PyFileSpec PyFileFacts.
Import ListNotations.
Open Scope Z_scope.

(* Calls on any number of File objects of a new file, in any order, are
   operations on one dictionary from names to tables: f.create(name, ...) adds
   an empty table or replaces the one there is, f[name] gives the table that the
   last call on it left, f[name] fails if there is none, keys is the sorted list
   of the names, and using one block does not disturb another. Nothing outside
   the directory of the file changes. Partial: a File that has listed the blocks
   says what it then saw (f_lists) until it creates one itself, names do not
   contain "header" or begin with dots, and no block is inside the directory of
   another. The theorems below show why. *)
Theorem C81_dict_partial : forall e f path os, path <> [] -> (length path <= Z.to_nat 8192)%nat ->
  tree f -> fs_get f (resolve path) = None -> way_free f (resolve path) -> fops_ok e path fstart os ->
  exists f1 p xs f' ps' st', py_file_new f path = (f1, Some p) /\ only_new_dirs f f1 (resolve path) /\
    frun e path (f1, [p]) os = Ret (xs, (f', ps')) /\ fspecs (e_me e) fstart os xs st' /\ elsewhere_same f1 f' (resolve path).
Proof.
  intros e f path os Hp Hl T Hn W H. destruct (start_ok e path Hp Hl f T Hn W) as (f1 & E1 & I & N).
  destruct (frun_ok e path Hp Hl os fstart f1 _ I H) as (xs & f' & ps' & st' & E & S & _ & O).
  exists f1, (mkFile path None), xs, f', ps', st'. auto.
Qed.

(* Two Files and a pickled one, a block in a directory, calls on it through
   another File than the one that made it, a block that is not there. *)
Definition ex_fops : list fop :=
  [FCreate 0 (lit "g/pos") (lit ">i4") 2 5 3; FOpen; FUse 1 (lit "g/pos") [HWrite 1 ex_a ex_um; HRead 0 ex_a2 ex_um]; FUse 1 (lit "g/vel") [];
   FCreate 1 (lit "a") (lit "<f8") 1 0 0; FKeys 0; FIn 1 (lit "a"); FPickle 1; FKeys 2; FUse 2 (lit "g/pos") [HRead 1 ex_a2 ex_um; HFlush]].
Lemma ex_shown (c : bytes) : is_dot c = false -> existsb (Byte.eqb "/") c = false -> hd_error c <> Some "."%byte -> shown_name c.
Proof.
  intros H1 H2 H3. split; [|exact H3]. split; [exact H1|]. intros X. assert (Y : existsb (Byte.eqb "/") c = true).
  { apply existsb_exists. exists "/"%byte. split; [exact X|apply byte_eqb_refl]. }
  congruence.
Qed.
Lemma ex_good cs : cs <> [] -> forallb (fun c => negb (is_dot c) && negb (existsb (Byte.eqb "/") c) && negb (match c with b :: _ => Byte.eqb b "." | [] => false end)) cs = true ->
  existsb (bytes_eqb (lit "header")) cs = false -> good_name cs.
Proof.
  intros H1 H2 H3. split; [exact H1|]. split.
  - apply Forall_forall. intros c Hc. rewrite forallb_forall in H2. specialize (H2 c Hc). apply andb_true_iff in H2. destruct H2 as [H2 H4].
    apply andb_true_iff in H2. destruct H2 as [H2 H5]. apply negb_true_iff in H2, H4, H5. apply ex_shown; [exact H2|exact H5|].
    destruct c as [|b c]; [discriminate|]. cbn. intros [= ->]. discriminate H4.
  - intros X. assert (Y : existsb (bytes_eqb (lit "header")) cs = true) by (apply existsb_exists; eexists; split; [exact X|apply bytes_eqb_refl]). congruence.
Qed.
(* No block of the example is above or below another. *)
Lemma ex_apart (d : dict) cs : (forall n, d n <> None -> n = lit "g/pos" \/ n = lit "a") -> good_name cs -> In cs [[lit "g"; lit "pos"]; [lit "a"]; [lit "g"; lit "vel"]] -> apart d cs.
Proof.
  intros Hd G Hcs ds Gd H P.
  assert (K : ds = [lit "g"; lit "pos"] \/ ds = [lit "a"]).
  { apply Hd in H. pose proof (slashed_inj ds) as J. destruct H as [H|H]; [left|right]; apply J; try exact H; try exact Gd; apply ex_good; [discriminate|reflexivity|reflexivity|discriminate|reflexivity|reflexivity]. }
  destruct K as [-> | ->]; destruct Hcs as [<-|[<-|[<-|[]]]]; try reflexivity; exfalso; destruct P as [[r E]|[r E]]; discriminate E.
Qed.
(* What is known of the states of the example: the names, the type of the
   first block, the number of File objects. *)
Definition ex_inv (k : nat) (st : fstate) : Prop := (forall n, f_dict st n <> None -> n = lit "g/pos" \/ n = lit "a") /\
  (exists t, f_dict st (lit "g/pos") = Some (mkContent (lit ">i4") 2 t)) /\ length (f_lists st) = k.
Lemma set_length vs i d : (i < length vs)%nat -> length (set_list vs i d) = length vs.
Proof. intros H. unfold set_list. rewrite app_length, firstn_length_le by lia. cbn [length]. rewrite skipn_length. lia. Qed.
Lemma ex_first st x st' : (forall n, f_dict st n = None) -> f_lists st = [None] -> fspec LE st (FCreate 0 (lit "g/pos") (lit ">i4") 2 5 3) x st' -> ex_inv 1 st'.
Proof.
  intros Hd Hl S. inversion S; subst. cbn [f_dict f_lists]. split; [|split].
  - intros n. cbn [f_dict]. unfold d', put. destruct (bytes_eqb (lit "g/pos") n) eqn:E; [apply bytes_eqb_eq in E; auto|]. rewrite Hd. contradiction.
  - eexists. reflexivity.
  - cbn [f_lists]. rewrite Hl. reflexivity.
Qed.
Lemma ex_step k st op x st' : ex_inv k st -> fspec LE st op x st' ->
  match op with
  | FOpen => ex_inv (S k) st'
  | FPickle i => (i < k)%nat -> ex_inv (S k) st'
  | FKeys i | FIn i _ => (i < k)%nat -> ex_inv k st'
  | FCreate i n _ _ _ _ => n = lit "a" -> (i < k)%nat -> ex_inv k st'
  | FUse i n _ => n = lit "g/pos" \/ n = lit "g/vel" -> ex_inv k st'
  end.
Proof.
  intros (H1 & (t & H2) & H3) S. inversion S; subst; unfold ex_inv; cbn [f_dict f_lists].
  - split; [exact H1|]. split; [eauto|]. rewrite app_length. cbn. lia.
  - intros -> Hi. split; [|split].
    + intros m. unfold d', put. destruct (bytes_eqb (lit "a") m) eqn:E; [apply bytes_eqb_eq in E; auto|apply H1].
    + exists t. exact H2.
    + apply set_length. exact Hi.
  - intros Hi. split; [exact H1|]. split; [eauto|]. apply set_length. exact Hi.
  - intros Hi. split; [exact H1|]. split; [eauto|]. apply set_length. exact Hi.
  - intros Hn. destruct Hn as [-> | ->].
    + match goal with E : f_dict st _ = Some c |- _ => rewrite H2 in E; injection E as <- end. split; [|split; [|reflexivity]].
      * intros m. unfold put. destruct (bytes_eqb (lit "g/pos") m) eqn:E; [apply bytes_eqb_eq in E; auto|apply H1].
      * eexists. reflexivity.
    + exfalso. match goal with E : f_dict st _ = Some c |- _ => destruct (H1 (lit "g/vel")) as [X|X]; [rewrite E; discriminate|discriminate X|discriminate X] end.
  - intros _. split; [exact H1|]. split; [eauto|reflexivity].
  - intros Hi. split; [exact H1|]. split; [eauto|]. rewrite app_length, set_length by exact Hi. cbn. lia.
Qed.
Ltac ex_name cs := exists cs; split; [reflexivity|]; split; [apply ex_good; [discriminate|reflexivity|reflexivity]|];
  apply ex_apart; [assumption|apply ex_good; [discriminate|reflexivity|reflexivity]|cbn; auto].
Ltac ex_args := split; [split; [reflexivity|split; [cbn; lia|reflexivity]]|]; split; [split; [reflexivity|split; [cbn; lia|repeat constructor; discriminate]]|];
  split; [split; reflexivity|]; repeat split; try discriminate; try reflexivity; try lia.
Ltac ex_after V := let x := fresh "x" in let s := fresh "st" in let H := fresh "S" in intros x s H; eapply ex_step in H; [|exact V]; cbv beta iota in H; clear V;
  repeat match type of H with ?A -> _ => let Y := fresh in assert (Y : A) by first [lia|auto; fail]; specialize (H Y); clear Y end; rename H into V.
Example C81_example : lit "out" <> [] /\ (length (lit "out") <= Z.to_nat 8192)%nat /\ tree ex_f1 /\ fs_get ex_f1 (resolve (lit "out")) = None /\
  way_free ex_f1 (resolve (lit "out")) /\ fops_ok ex_e (lit "out") fstart ex_fops.
Proof.
  split; [discriminate|]. split; [vm_compute; lia|]. split; [apply tree_check; reflexivity|]. split; [reflexivity|].
  split. { intros q c [r E]. destruct q as [|x q]; [discriminate|]. injection E as <- E. destruct q; [discriminate|discriminate E]. }
  unfold ex_fops. cbn [fops_ok]. change (e_me ex_e) with LE.
  assert (Hdom : forall n, f_dict fstart n <> None -> n = lit "g/pos" \/ n = lit "a") by (intros n X; contradiction).
  split. { cbn [fop_ok]. split; [cbn; lia|]. split; [ex_name [lit "g"; lit "pos"]|]. ex_args. }
  clear Hdom. intros x st S. assert (V : ex_inv 1 st) by (eapply ex_first; [| |exact S]; reflexivity). clear x S.
  split; [exact I|]. intros x st1 S. eapply ex_step in S; [|exact V]. cbv beta iota in S. clear V. rename S into V.
  split. { destruct V as (_ & (t & E) & L). cbn [fop_ok]. rewrite L. split; [lia|]. rewrite E. split; [apply ex_hwrite; lia|]. split; [apply ex_hread; lia|exact I]. }
  ex_after V.
  split. { destruct V as (Hd & (t & E) & L). cbn [fop_ok]. rewrite L. split; [lia|].
    destruct (f_dict st0 (lit "g/vel")) as [c|] eqn:Ec; [destruct (Hd (lit "g/vel")) as [X|X]; [rewrite Ec; discriminate|discriminate X|discriminate X]|].
    split; [ex_name [lit "g"; lit "vel"]|]. split; [reflexivity|split; [cbn; lia|reflexivity]]. }
  ex_after V.
  split. { destruct V as (Hd & _ & L). cbn [fop_ok]. rewrite L. split; [lia|]. split; [ex_name [lit "a"]|]. ex_args. }
  ex_after V. split; [cbn [fop_ok]; destruct V as (_ & _ & ->); lia|].
  ex_after V. split; [cbn [fop_ok]; destruct V as (_ & _ & ->); lia|].
  ex_after V. split; [cbn [fop_ok]; destruct V as (_ & _ & ->); lia|].
  ex_after V. split; [cbn [fop_ok]; destruct V as (_ & _ & ->); lia|].
  ex_after V.
  split. { destruct V as (_ & (t & E) & L). cbn [fop_ok]. rewrite L. split; [lia|]. rewrite E. split; [apply ex_hread; lia|]. split; exact I. }
  intros. exact I.
Qed.

(* What the calls return. *)
Definition says (os : list fop) (xs : list fres) : Prop := exists e f path f1 p st,
  path <> [] /\ tree f /\ fs_get f (resolve path) = None /\ way_free f (resolve path) /\
  py_file_new f path = (f1, Some p) /\ frun e path (f1, [p]) os = Ret (xs, st).
Lemma says_run os xs : match py_file_new ex_f1 (lit "out") with
  | (f1, Some p) => match frun ex_e (lit "out") (f1, [p]) os with Ret (ys, _) => ys = xs | _ => False end
  | _ => False end -> says os xs.
Proof.
  intros H. destruct (py_file_new ex_f1 (lit "out")) as [f1 [p|]] eqn:E1; [|contradiction].
  destruct (frun ex_e (lit "out") (f1, [p]) os) as [[ys st]| |] eqn:E2; try contradiction. subst ys.
  exists ex_e, ex_f1, (lit "out"), f1, p, st. destruct C81_example as (X1 & _ & X2 & X3 & X4 & _). auto 10.
Qed.
(* The second File has listed the blocks. After the first creates one, the
   second says that it is not there, but opens it. *)
Theorem C81_stale_refuted : says
  [FOpen; FKeys 1; FCreate 0 (lit "a") (lit "<f8") 1 5 1; FKeys 0; FIn 1 (lit "a"); FKeys 1; FUse 1 (lit "a") []]
  [FDone; FNames []; FDone; FNames [lit "a"]; FBool false; FNames []; FRows []].
Proof. apply says_run. vm_compute. reflexivity. Qed.
(* A block in the directory of another block can be created and opened, but is
   not among the keys. *)
Theorem C81_nested_refuted : says
  [FCreate 0 (lit "a") (lit "<f8") 1 5 1; FCreate 0 (lit "a/b") (lit "<f8") 1 5 1; FKeys 0; FIn 0 (lit "a/b"); FUse 0 (lit "a/b") []]
  [FDone; FDone; FNames [lit "a"]; FBool false; FRows []].
Proof. apply says_run. vm_compute. reflexivity. Qed.
(* The same for a name that begins with a dot. *)
Theorem C81_hidden_refuted : says
  [FCreate 0 (lit ".a") (lit "<f8") 1 5 1; FKeys 0; FIn 0 (lit ".a"); FUse 0 (lit ".a") []]
  [FDone; FNames []; FBool false; FRows []].
Proof. apply says_run. vm_compute. reflexivity. Qed.
(* After a block whose path ends in "header" is created, the directory it is
   in is among the keys, but cannot be opened; the block is not among them. *)
Theorem C81_header_refuted : says
  [FCreate 0 (lit "a/header") (lit "<f8") 1 5 1; FKeys 0; FUse 0 (lit "a") []; FUse 0 (lit "a/header") []]
  [FDone; FNames [lit "a"]; FRaised BigError; FRows []].
Proof. apply says_run. vm_compute. reflexivity. Qed.

Print Assumptions C81_dict_partial.
Print Assumptions C81_stale_refuted.
Print Assumptions C81_nested_refuted.
Print Assumptions C81_hidden_refuted.
Print Assumptions C81_header_refuted.
