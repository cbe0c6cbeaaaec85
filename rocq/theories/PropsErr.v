(* C52, C53: error messages. *)
From Coq.Strings Require Import Byte String.
From Coq Require Import List ZArith Lia Bool ZifyBool ZifyNat Permutation.
From Verif Require Import Base BaseFacts Dtype Fmt Block Errmsg ErrFacts.
Import ListNotations.
Open Scope Z_scope.
Local Open Scope out_scope.

(* ---------------- specification ---------------- *)
(* A message as the caller means it: plain text with values in between. *)
Inductive piece : Type :=
| Text (t : bytes)      (* literal text *)
| Str (s : bytes)       (* %s *)
| Num (z : Z)           (* %d *)
| Off (z : Z)           (* %td *)
| Lng (z : Z).          (* %ld *)
Definition fmt_of (ps : list piece) : bytes :=
  flat_map (fun p => match p with Text t => t | Str _ => lit "%s" | Num _ => lit "%d" | Off _ => lit "%td" | Lng _ => lit "%ld" end) ps.
Definition args_of (ps : list piece) : list varg :=
  flat_map (fun p => match p with Text t => [] | Str s => [AStr s] | Num z => [AInt z] | Off z => [ALong z] | Lng z => [ALong z] end) ps.
Definition text_of (ps : list piece) : bytes :=
  flat_map (fun p => match p with Text t => t | Str s => s | Num z => print_signed z | Off z => print_signed z | Lng z => print_signed z end) ps.
(* the literal text has no percent sign; neither have the strings inserted *)
Definition plain_texts (ps : list piece) : Prop := forall t, In (Text t) ps -> no_percent t.
Definition plain_values (ps : list piece) : Prop := forall s, In (Str s) ps -> no_percent s.
Definition place (file : bytes) (line : Z) : bytes :=
  lit " @(" ++ file ++ lit ":" ++ print_signed line ++ lit ")".
(* what is kept of a message *)
Definition kept (m : bytes) : bytes := firstn (Z.to_nat 8192) m.

(* ---------------- C53 ---------------- *)
Lemma vformat_pieces ps r : plain_texts ps -> no_percent r -> vformat (fmt_of ps ++ r) (args_of ps) = Ret (text_of ps ++ r).
Proof.
  intros Hp Hr. revert Hp. induction ps as [|p ps IH]; intros Hp; cbn [fmt_of args_of text_of flat_map app].
  - apply vformat_plain. exact Hr.
  - assert (Hp' : plain_texts ps) by (intros t Ht; apply Hp; right; exact Ht). specialize (IH Hp').
    fold (fmt_of ps) (args_of ps) (text_of ps).
    destruct p as [t|s|z|z|z]; rewrite <- !app_assoc.
    + rewrite vformat_text by (apply Hp; left; reflexivity). cbn [app]. rewrite IH. reflexivity.
    + change (lit "%s") with ["%"%byte; "s"%byte]. cbn [app vformat]. rewrite IH. reflexivity.
    + change (lit "%d") with ["%"%byte; "d"%byte]. cbn [app vformat]. rewrite IH. reflexivity.
    + change (lit "%td") with ["%"%byte; "t"%byte; "d"%byte]. cbn [app vformat]. rewrite IH. reflexivity.
    + change (lit "%ld") with ["%"%byte; "l"%byte; "d"%byte]. cbn [app vformat]. rewrite IH. reflexivity.
Qed.
Lemma place_no_percent file line : no_percent file -> no_percent (place file line).
Proof.
  intros H. unfold place. rewrite !no_percent_app. repeat split; auto using print_signed_no_percent; vm_compute; intuition discriminate.
Qed.
Lemma place_length file line : zlen file + 6 <= zlen (place file line) <= zlen file + 70.
Proof.
  unfold place. rewrite !zlen_app. pose proof (print_signed_length line).
  change (zlen (lit " @(")) with 3. change (zlen (lit ":")) with 1. change (zlen (lit ")")) with 1. lia.
Qed.

(* Exactly when a message fits: its text and the place it comes from must be
   shorter than the format and the file name by less than 512 bytes. *)
Theorem C53_raise cur ps file line :
  plain_texts ps -> no_percent file ->
  raise cur (Some (fmt_of ps)) file line (args_of ps) =
  if zlen (text_of ps ++ place file line) <? zlen (fmt_of ps) + zlen file + 512
  then Ret (kept (text_of ps ++ place file line)) else Undef OOB.
Proof.
  intros Hp Hf. unfold raise. fold (place file line).
  pose proof (place_length file line) as L. rewrite !zlen_app.
  assert (zlen (fmt_of ps) + zlen file + 512 <? zlen (fmt_of ps) + zlen (place file line) + 1 = false) as -> by lia.
  rewrite vformat_pieces by auto using place_no_percent. cbn [bind]. rewrite zlen_app.
  destruct (zlen (text_of ps) + zlen (place file line) <? zlen (fmt_of ps) + zlen file + 512) eqn:E.
  - assert (zlen (fmt_of ps) + zlen file + 512 <? zlen (text_of ps) + zlen (place file line) + 1 = false) as -> by lia. reflexivity.
  - assert (zlen (fmt_of ps) + zlen file + 512 <? zlen (text_of ps) + zlen (place file line) + 1 = true) as -> by lia. reflexivity.
Qed.

Lemma kept_kept a b : kept (kept a ++ b) = kept (a ++ b).
Proof.
  unfold kept. generalize (Z.to_nat 8192) as n. intros n. rewrite !firstn_app, firstn_firstn, Nat.min_id.
  f_equal. rewrite firstn_length. destruct (le_lt_dec n (length a)) as [H|H].
  - rewrite Nat.min_l by auto. replace (n - n)%nat with O by lia. replace (n - length a)%nat with O by lia. reflexivity.
  - rewrite Nat.min_r by lia. reflexivity.
Qed.
Lemma kept_head p q : zlen p <= 8192 -> exists q', kept (p ++ q) = p ++ q'.
Proof.
  intros H. unfold zlen in H. assert (H' : (length p <= Z.to_nat 8192)%nat) by lia. unfold kept. revert H'. generalize (Z.to_nat 8192) as n. intros n H'.
  rewrite firstn_app, firstn_all2 by exact H'. eauto.
Qed.
Lemma kept_no_percent a : no_percent a -> no_percent (kept a).
Proof. unfold kept, no_percent. intros H I. apply H. rewrite <- (firstn_skipn (Z.to_nat 8192) a). apply in_or_app. auto. Qed.
Lemma raise_again cur file line args : no_percent cur -> no_percent file ->
  raise (Some cur) None file line args = Ret (kept (cur ++ place file line)).
Proof.
  intros Hc Hf. unfold raise. fold (place file line).
  pose proof (place_length file line) as L. rewrite !zlen_app.
  assert (zlen cur + zlen file + 512 <? zlen cur + zlen (place file line) + 1 = false) as E by lia. rewrite E.
  rewrite vformat_plain by (apply no_percent_app; auto using place_no_percent). cbn [bind]. rewrite zlen_app, E. reflexivity.
Qed.
Lemma reraise_all places : forall cur, no_percent cur -> Forall (fun p => no_percent (fst p)) places ->
  reraise (kept cur) places = Ret (kept (cur ++ flat_map (fun p => place (fst p) (snd p)) places)).
Proof.
  induction places as [|[file line] r IH]; intros cur Hc Hp.
  - cbn [reraise flat_map]. rewrite app_nil_r. reflexivity.
  - inversion Hp; subst. cbn [fst] in *. cbn [reraise flat_map fst snd].
    rewrite raise_again by auto using kept_no_percent. cbn [bind]. rewrite kept_kept.
    rewrite IH; auto; [|apply no_percent_app; auto using place_no_percent].
    rewrite <- app_assoc. reflexivity.
Qed.

(* C53, partial: an error whose values have no percent sign and add at most
   400 bytes to the format, passed up through any number of callers. *)
Theorem C53_error_partial cur ps file line places :
  plain_texts ps -> plain_values ps -> no_percent file ->
  zlen (text_of ps) <= zlen (fmt_of ps) + 400 ->
  Forall (fun p => no_percent (fst p)) places ->
  (m <- raise cur (Some (fmt_of ps)) file line (args_of ps) ;; reraise m places) =
  Ret (kept (text_of ps ++ place file line ++ flat_map (fun p => place (fst p) (snd p)) places)).
Proof.
  intros Hp Hv Hf Hl Hq. rewrite C53_raise by auto. pose proof (place_length file line) as L. rewrite zlen_app.
  assert (zlen (text_of ps) + zlen (place file line) <? zlen (fmt_of ps) + zlen file + 512 = true) as -> by lia.
  cbn [bind]. rewrite reraise_all; auto.
  - rewrite <- app_assoc. reflexivity.
  - apply no_percent_app. split; [|apply place_no_percent; auto].
    clear - Hp Hv. unfold no_percent, text_of. rewrite in_flat_map. intros (p & I1 & I2).
    destruct p; [exact (Hp _ I1 I2)|exact (Hv _ I1 I2)| | |]; exact (print_signed_no_percent _ I2).
Qed.

(* C53 is false as stated, first way: opening a block whose name is long and
   that does not exist writes past the end of the buffer. *)
Lemma path_join_tail base x : base <> [] -> exists t, path_join base x = base ++ t /\ zlen t <= 1 + zlen x.
Proof.
  intros H. unfold path_join. destruct (rev base) as [|c r] eqn:E.
  - exfalso. apply H. rewrite <- (rev_involutive base), E. reflexivity.
  - destruct (Byte.eqb c "/"); eexists; (split; [reflexivity|]).
    + lia.
    + cbn [app]. rewrite zlen_cons. lia.
Qed.
Definition open_pieces (path mode err : bytes) : list piece :=
  [Text (lit "Failed to open physical file `"); Str path; Text (lit "' with mode `"); Str mode; Text (lit "' ("); Str err; Text (lit ")")].
Lemma open_pieces_plain path mode err : plain_texts (open_pieces path mode err).
Proof.
  intros t H. unfold open_pieces in H. cbn [In] in H.
  repeat (destruct H as [H|H]; [first [discriminate | injection H as <-; vm_compute; intuition discriminate]|]). contradiction.
Qed.
Lemma open_pieces_raise cur path mode err file l :
  raise cur (Some fmt_open) file l [AStr path; AStr mode; AStr err] =
  raise cur (Some (fmt_of (open_pieces path mode err))) file l (args_of (open_pieces path mode err)).
Proof. reflexivity. Qed.

Theorem C53_long_name_refuted cur base err file l1 l2 :
  512 <= zlen base -> no_percent file -> open_no_header cur base err file l1 l2 = Undef OOB.
Proof.
  intros Hb Hf. unfold open_no_header. rewrite open_pieces_raise, C53_raise by auto using open_pieces_plain.
  destruct (path_join_tail base (lit "header")) as (t & -> & _); [intros ->; cbv in Hb; congruence|].
  match goal with |- context [if ?c then _ else _] => assert (c = false) as -> end; [|reflexivity].
  pose proof (place_length file l1). unfold open_pieces, text_of, fmt_of. cbn [flat_map]. rewrite !zlen_app.
  pose proof (zlen_nonneg err). pose proof (zlen_nonneg t).
  repeat match goal with |- context [zlen (lit ?s)] => let v := eval vm_compute in (zlen (lit s)) in change (zlen (lit s)) with v end.
  cbn [zlen length]. change (zlen []) with 0. lia.
Qed.

(* Second way: a name containing %s ends up in the format of the next caller,
   which supplies no argument for it. *)
Theorem C53_percent_refuted cur a b err file l1 l2 :
  no_percent a -> no_percent file -> zlen a + zlen b + zlen err <= 400 ->
  open_no_header cur (a ++ lit "%s" ++ b) err file l1 l2 = Undef OOB.
Proof.
  intros Ha Hf Hl. unfold open_no_header. rewrite open_pieces_raise, C53_raise by auto using open_pieces_plain.
  destruct (path_join_tail (a ++ lit "%s" ++ b) (lit "header")) as (t & Et & Lt); [destruct a; discriminate|].
  change (1 + zlen (lit "header")) with 7 in Lt.
  rewrite Et.
  match goal with |- context [if ?c then _ else _] => assert (c = true) as -> end.
  { pose proof (place_length file l1). unfold open_pieces, text_of, fmt_of. cbn [flat_map]. rewrite !zlen_app.
    repeat match goal with |- context [zlen (lit ?s)] => let v := eval vm_compute in (zlen (lit s)) in change (zlen (lit s)) with v end.
    change (zlen []) with 0. lia. }
  cbn [bind]. 
  set (pre := lit "Failed to open physical file `" ++ a).
  assert (exists q, kept (text_of (open_pieces ((a ++ lit "%s" ++ b) ++ t) (lit "r") err) ++ place file l1) = pre ++ lit "%s" ++ q) as [q ->].
  { destruct (kept_head (pre ++ lit "%s") (b ++ t ++ lit "' with mode `" ++ lit "r" ++ lit "' (" ++ err ++ lit ")" ++ [] ++ place file l1)) as [q Eq].
    - unfold pre. rewrite !zlen_app. change (zlen (lit "Failed to open physical file `")) with 30. change (zlen (lit "%s")) with 2.
      pose proof (zlen_nonneg b). pose proof (zlen_nonneg err). lia.
    - exists q. rewrite <- (app_assoc pre) in Eq. rewrite <- (app_assoc pre (lit "%s") q) in Eq. rewrite <- Eq. f_equal. unfold pre, open_pieces, text_of. cbn [flat_map].
      rewrite <- !app_assoc. reflexivity. }
  unfold raise. match goal with |- context [if ?c then _ else _] => destruct c end; [reflexivity|].
  rewrite <- !app_assoc. rewrite vformat_text; [reflexivity|].
  unfold pre. apply no_percent_app. split; auto. vm_compute; intuition discriminate.
Qed.

(* Opening the missing block "d/%s", and one whose name has 600 characters. *)
Theorem C53_refuted :
  open_no_header None (lit "d/%s") (lit "No such file or directory") (lit "bigfile.c") 1932 334 = Undef OOB /\
  open_no_header None (repeat "x"%byte 600) (lit "No such file or directory") (lit "bigfile.c") 1932 334 = Undef OOB.
Proof.
  split.
  - apply (C53_percent_refuted None (lit "d/") [] _ (lit "bigfile.c")); vm_compute; intuition discriminate.
  - apply C53_long_name_refuted; vm_compute; intuition discriminate.
Qed.

(* the hypotheses are met: a missing block with an ordinary name *)
Example C53_example :
  let ps := open_pieces (lit "d/x/header") (lit "r") (lit "No such file or directory") in
  plain_texts ps /\ plain_values ps /\ zlen (text_of ps) <= zlen (fmt_of ps) + 400 /\
  open_no_header None (lit "d/x") (lit "No such file or directory") (lit "bigfile.c") 1932 334 =
  Ret (lit "Failed to open physical file `d/x/header' with mode `r' (No such file or directory) @(bigfile.c:1932) @(bigfile.c:334)").
Proof.
  split; [apply open_pieces_plain|]. split; [|split; [vm_compute; discriminate|vm_compute; reflexivity]].
  intros s H. unfold open_pieces in H. cbn [In] in H.
  repeat (destruct H as [H|H]; [first [discriminate | injection H as <-; vm_compute; intuition discriminate]|]). contradiction.
Qed.

(* ---------------- C52 ---------------- *)
(* the text a reader would see now *)
Definition shown (s : estate) : option bytes :=
  match e_cur s with Some a => find_msg (e_live s) a | None => None end.
Definition finished (s : estate) : Prop := Forall (fun t => th_pc t = Out /\ th_todo t = []) (e_threads s).

(* Any number of threads, each installing its own list of messages, under any
   schedule (also one that stops early): nothing is freed twice or while
   installed; what is installed is a complete copy of the message set last;
   in the end every copy made has been freed exactly once except the one still
   installed, and all messages were installed. *)
Theorem C52_threads (msgs : list (list (option bytes))) (sched : list nat) :
  exists s, erun true (estart (map (map CSet) msgs)) sched = Ret s /\
  (shown s = match e_log s with m :: _ => option_map kept m | [] => None end) /\
  (e_cur s = None <-> match e_log s with Some _ :: _ => False | _ => True end) /\
  NoDup (e_freed s) /\
  (forall a, e_cur s = Some a -> ~ In a (e_freed s)) /\
  (finished s ->
     Permutation (e_log s) (concat msgs) /\
     map fst (e_live s) = match e_cur s with Some a => [a] | None => [] end /\
     forall a, (a < e_next s)%nat -> e_cur s <> Some a -> count_occ Nat.eq_dec (e_freed s) a = 1%nat).
Proof.
  destruct (erun_inv (concat msgs) sched _ (estart_inv msgs)) as (s & E & [I1 I2 I3 I4 I5]).
  exists s. split; [exact E|]. clear E.
  assert (C : forall a, e_cur s = Some a -> (0 < cnt a (map fst (e_live s)))%nat).
  { intros a H. rewrite I1. unfold owned. rewrite H, cnt_app. cbn [opt]. rewrite cnt_cons, Nat.eqb_refl. lia. }
  split; [|split; [|split; [|split]]].
  - unfold shown, shows in *. destruct (e_log s) as [|[m|] l]; [rewrite I4; reflexivity| |rewrite I4; reflexivity].
    destruct I4 as (a & -> & ->). reflexivity.
  - unfold shows in I4. destruct (e_log s) as [|[m|] l]; [tauto| |tauto]. destruct I4 as (a & -> & _). split; [discriminate|tauto].
  - apply (NoDup_count_occ Nat.eq_dec). intros a. specialize (I2 a). unfold cnt in I2. destruct (Nat.ltb a (e_next s)); lia.
  - intros a H F. apply C in H. apply cnt_In in F. specialize (I2 a). destruct (Nat.ltb a (e_next s)); lia.
  - intros F.
    assert (T : flat_map pend (e_threads s) = [] /\ flat_map (fun t => own_pc (th_pc t)) (e_threads s) = []).
    { unfold finished in F. clear - F. induction F as [|t l [H1 H2] F IH]; cbn; [auto|]. destruct IH as [-> ->].
      unfold pend. rewrite H1, H2. auto. }
    destruct T as [T1 T2]. rewrite T1, app_nil_r in I5. split; [exact I5|].
    assert (O : forall a, cnt a (map fst (e_live s)) = cnt a (opt (e_cur s))).
    { intros a. rewrite I1. unfold owned. rewrite T2. reflexivity. }
    split.
    + assert (P : Permutation (map fst (e_live s)) (opt (e_cur s))).
      { apply (Permutation_count_occ Nat.eq_dec). intros a. apply O. }
      destruct (e_cur s) as [a|]; cbn [opt] in P.
      * apply Permutation_sym, Permutation_length_1_inv in P. exact P.
      * apply Permutation_sym, Permutation_nil in P. exact P.
    + intros a Ha Hn. specialize (I2 a). specialize (O a). assert (Nat.ltb a (e_next s) = true) as R by lia. rewrite R in I2.
      fold (cnt a (e_freed s)). destruct (e_cur s) as [b|]; cbn [opt] in O.
      * rewrite cnt_cons, cnt_nil in O. assert (Nat.eqb b a = false) as Q by (apply Nat.eqb_neq; intros ->; apply Hn; reflexivity). rewrite Q in O. lia.
      * rewrite cnt_nil in O. lia.
Qed.

(* Two threads, three messages, exchanges overlapping. *)
Example C52_example :
  exists s, erun true (estart (map (map CSet) [[Some (lit "a"); None]; [Some (lit "b")]])) [0; 1; 1; 0; 1; 0; 0; 0; 0]%nat = Ret s /\
  finished s /\ e_log s = [None; Some (lit "a"); Some (lit "b")] /\ e_freed s = [0; 1]%nat /\ shown s = None.
Proof. eexists. split; [vm_compute; reflexivity|]. split; [repeat constructor|]. repeat split. Qed.

(* Without atomic operations (the last branch of the conditional compilation)
   the property is false: both threads free the same message. *)
Theorem C52_fallback_refuted :
  exists msgs sched, erun false (estart (map (map CSet) msgs)) sched = Undef OOB.
Proof.
  exists [[Some (lit "a"); Some (lit "b")]; [Some (lit "c")]], [0; 0; 0; 0; 0; 1; 0; 1; 0; 1; 0; 1]%nat. vm_compute. reflexivity.
Qed.
(* And the text obtained by a reader may be freed before it is used. *)
Theorem C52_reader_refuted :
  exists calls sched, erun true (estart calls) sched = Undef OOB.
Proof.
  exists [[CSet (Some (lit "a")); CSet (Some (lit "b"))]; [CRead]], [0; 0; 0; 1; 0; 0; 0; 1]%nat. vm_compute. reflexivity.
Qed.

Print Assumptions C52_threads.
Print Assumptions C52_fallback_refuted.
Print Assumptions C52_reader_refuted.
Print Assumptions C53_raise.
Print Assumptions C53_error_partial.
Print Assumptions C53_long_name_refuted.
Print Assumptions C53_percent_refuted.
Print Assumptions C53_refuted.
