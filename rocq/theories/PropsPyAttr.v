(* Property C78: b.attrs of the Python package is a dict. *)
From Coq.Strings Require Import Byte String.
From Coq Require Import List ZArith Lia Bool ZifyBool.
From Verif Require Import Base BaseFacts Dtype Cast Array FS Fmt Attr Block Spec AttrSpec OpenSpec SessSpec Py PySpec PyAttr PyAttrSpec
  AttrFacts PyAttrFacts Ex PropsHeader PropsAttr PropsPy.
Import ListNotations.
Open Scope Z_scope.

(* The specification is in PyAttrSpec.v. Every history of assignments,
   deletions, lookups, key lists, flushes and reopenings of a new block: each
   statement answers as the dict does. Deletions are not saved by themselves
   (dnext), arrays have the machine's byte order and strings in lists are
   shorter than 100000 bytes (pyval_ok): the three ways in which attrs differs
   from a dict that survives closing. *)
Theorem C78_dict_partial : forall e f base d nmemb sizes os alloc, g_clean e -> alloc_ok alloc ->
  block_name base -> block_dir f base -> layout_ok sizes -> fs_get f (attr1_path base) = None ->
  header_type (dtype_normalize (e_me e) d) -> 0 <= nmemb < 2 ^ 31 -> zlen sizes <= 2 ^ 24 ->
  Forall (dop_ok (e_me e)) os -> zsum (map dop_size os) <= 2 ^ 61 ->
  exists f0 b0 xs f' b', big_block_create e f base (Some d) nmemb (zlen sizes) sizes = Ret (f0, Some b0) /\
    py_attr_run e alloc (f0, b0) os = Ret (xs, (f', b')) /\ dict_says_all (e_me e) dstart os xs /\
    same_table b0 b' /\ has_layout b' sizes.
Proof. exact attrs_dict. Qed.

(* Without deletions: attrs[name] is the value last assigned to name, wherever
   the block was flushed or closed and opened again in between, and KeyError
   if there is none. *)
Theorem C78_last_value_partial : forall e f base d nmemb sizes os alloc name, g_clean e -> alloc_ok alloc ->
  block_name base -> block_dir f base -> layout_ok sizes -> fs_get f (attr1_path base) = None ->
  header_type (dtype_normalize (e_me e) d) -> 0 <= nmemb < 2 ^ 31 -> zlen sizes <= 2 ^ 24 ->
  Forall (dop_ok (e_me e)) os -> zsum (map dop_size os) <= 2 ^ 61 -> Forall no_del os -> name_ok name ->
  exists f0 b0 xs st, big_block_create e f base (Some d) nmemb (zlen sizes) sizes = Ret (f0, Some b0) /\
    py_attr_run e alloc (f0, b0) (os ++ [DGet name]) =
      Ret (xs ++ [match last_set os name with Some v => AShow (as_read (e_me e) v) | None => ARaise KeyError end], st).
Proof. exact attrs_last. Qed.

Definition ex_dops : list dop :=
  [DSet (lit "run") (VStr (lit "a name")); DSet (lit "Box") (VArr (lit "<f4") 2 [x00; x00; x80; x3f; x00; x00; x00; x40]);
   DSet (lit "bad name") (VStr (lit "x")); DSet (lit "o") VObj; DReopen; DGet (lit "run"); DGet (lit "none"); DKeys;
   DSet (lit "run") (VStrs [lit "ab"; lit "cde"]); DFlush; DIn (lit "run"); DReopen; DKeys].
Lemma ex_dops_ok : Forall (dop_ok LE) ex_dops.
Proof.
  assert (Hn : forall s, s <> [] -> existsb (Byte.eqb x00) s = false -> name_ok s) by (intros s H1 H2; split; [exact H1|apply not_in_dec; exact H2]).
  unfold ex_dops. repeat (apply Forall_cons; [|]); try apply Forall_nil; cbn [dop_ok]; try exact I; try (apply Hn; [discriminate|reflexivity]);
    (split; [apply Hn; [discriminate|reflexivity]|]); cbn [pyval_ok]; try exact I.
  - split; [discriminate|reflexivity].
  - split; [reflexivity|]. split; [split; reflexivity|]. split; [reflexivity|]. split; [reflexivity|].
    split; [split; [discriminate|repeat constructor; discriminate]|]. split; [reflexivity|]. split; discriminate.
  - split; [discriminate|reflexivity].
  - split; [discriminate|]. split; [|reflexivity]. repeat constructor; discriminate.
Qed.
Example C78_example : Forall (dop_ok LE) ex_dops /\ zsum (map dop_size ex_dops) <= 2 ^ 61 /\ Forall no_del ex_dops /\ name_ok (lit "run") /\
  g_clean ex_e /\ alloc_ok ex_alloc /\ block_name ex_base /\ block_dir ex_f ex_base /\ layout_ok ex_sizes /\
  fs_get ex_f (attr1_path ex_base) = None /\ header_type (dtype_normalize LE (lit "i4")) /\
  last_set ex_dops (lit "run") = Some (VStrs [lit "ab"; lit "cde"]) /\
  match big_block_create ex_e ex_f ex_base (Some (lit "i4")) 1 (zlen ex_sizes) ex_sizes with
  | Ret (f0, Some b0) =>
      match py_attr_run ex_e ex_alloc (f0, b0) (ex_dops ++ [DGet (lit "run")]) with
      | Ret (xs, _) => xs = [ADone; ADone; ARaise BigError; ARaise ValueError; ADone; AShow (RStr (lit "a name")); ARaise KeyError;
          AKeys [lit "Box"; lit "run"]; ADone; ADone; ABool true; ADone; AKeys [lit "Box"; lit "run"]; AShow (RStrs [lit "ab"; lit "cde"])]
      | _ => False
      end
  | _ => False
  end.
Proof.
  split; [exact ex_dops_ok|]. split; [discriminate|]. split; [repeat constructor|]. split; [split; [discriminate|apply not_in_dec; reflexivity]|].
  split; [exact ex_clean|]. split; [exact ex_alloc_ok|].
  split; [exact ex_name|]. split; [exact ex_dir|]. split; [exact ex_lay|]. split; [exact ex_no1|]. split; [exact ex_ty4|]. split; [reflexivity|]. vm_compute. reflexivity.
Qed.

(* On every block: an attribute that was saved, then deleted, is back when the
   block is opened again. *)
Theorem C78_deleted_returns : forall e f base d nmemb sizes alloc name v, g_clean e -> alloc_ok alloc ->
  block_name base -> block_dir f base -> layout_ok sizes -> fs_get f (attr1_path base) = None ->
  header_type (dtype_normalize (e_me e) d) -> 0 <= nmemb < 2 ^ 31 -> zlen sizes <= 2 ^ 24 ->
  name_ok name -> has_blank name = false -> pyval_ok (e_me e) v -> v <> VObj -> dop_size (DSet name v) <= 2 ^ 61 ->
  exists f0 b0 st, big_block_create e f base (Some d) nmemb (zlen sizes) sizes = Ret (f0, Some b0) /\
    py_attr_run e alloc (f0, b0) [DSet name v; DFlush; DDel name; DIn name; DReopen; DIn name; DGet name] =
      Ret ([ADone; ADone; ADone; ABool false; ADone; ABool true; AShow (as_read (e_me e) v)], st).
Proof.
  intros e f base d nmemb sizes alloc name v Hg Hal Hn Hd Hl Ha Ht Hnm HN Hk Hb Hv Hvo Hs.
  destruct (attrs_dict e f base d nmemb sizes [DSet name v; DFlush; DDel name; DIn name; DReopen; DIn name; DGet name] alloc)
    as (f0 & b0 & xs & f' & b' & E & Er & Hx & _); auto.
  - repeat constructor; cbn [dop_ok]; auto; apply Hk.
  - cbn [map]. change (zsum [dop_size (DSet name v); dop_size DFlush; dop_size (DDel name); dop_size (DIn name); dop_size DReopen; dop_size (DIn name); dop_size (DGet name)])
      with (dop_size (DSet name v) + 0). lia.
  - exists f0, b0, (f', b'). split; [exact E|]. rewrite Er. do 2 f_equal.
    assert (E1 : dnext dstart (DSet name v) = mkD (put empty_dict name (Some v)) empty_dict true) by (destruct v; try congruence; cbn [dnext]; rewrite Hb; reflexivity).
    destruct xs as [|x1 [|x2 [|x3 [|x4 [|x5 [|x6 [|x7 [|x8 xs]]]]]]]]; cbn [dict_says_all] in Hx; try tauto.
    rewrite E1 in Hx. cbn [dict_says dnext dflush now disk due] in Hx. unfold put in Hx. rewrite bytes_eqb_refl in Hx.
    destruct Hx as (H1 & H2 & H3 & H4 & H5 & H6 & H7 & _).
    assert (H1' : x1 = ADone) by (destruct v; try congruence; rewrite Hb in H1; exact H1). subst. reflexivity.
Qed.

Theorem C78_deleted_refuted : exists e f base name f0 b0 v st,
  big_block_create e f base (Some (lit "i4")) 1 (zlen ex_sizes) ex_sizes = Ret (f0, Some b0) /\
  py_attr_run e ex_alloc (f0, b0) [DSet name v; DFlush; DDel name; DReopen; DIn name] = Ret ([ADone; ADone; ADone; ADone; ABool true], st).
Proof.
  assert (H : match big_block_create ex_e ex_f ex_base (Some (lit "i4")) 1 (zlen ex_sizes) ex_sizes with
    | Ret (f0, Some b0) => match py_attr_run ex_e ex_alloc (f0, b0) [DSet (lit "a") (VStr (lit "x")); DFlush; DDel (lit "a"); DReopen; DIn (lit "a")] with
        | Ret (xs, _) => xs = [ADone; ADone; ADone; ADone; ABool true]
        | _ => False end
    | _ => False end) by (vm_compute; reflexivity).
  destruct (big_block_create ex_e ex_f ex_base (Some (lit "i4")) 1 (zlen ex_sizes) ex_sizes) as [[f0 [b0|]]| |] eqn:E1; try contradiction.
  destruct (py_attr_run ex_e ex_alloc (f0, b0) [DSet (lit "a") (VStr (lit "x")); DFlush; DDel (lit "a"); DReopen; DIn (lit "a")]) as [[xs st]| |] eqn:E2; try contradiction.
  subst xs. exists ex_e, ex_f, ex_base, (lit "a"), f0, b0, (VStr (lit "x")), st. auto.
Qed.

(* An array of the other byte order: reading it changes it. *)
Theorem C78_order_refuted : exists e f b name st,
  py_attr_run e ex_alloc (f, b) [DSet name (VArr (lit ">i4") 1 [x00; x00; x00; x07]); DGet name; DGet name] =
    Ret ([ADone; AShow (RArr (lit ">i4") 1 [x00; x00; x00; x07]); AShow (RArr (lit ">i4") 1 [x07; x00; x00; x00])], st).
Proof.
  assert (H : match py_attr_run ex_e ex_alloc (ex_f, ex_b) [DSet (lit "a") (VArr (lit ">i4") 1 [x00; x00; x00; x07]); DGet (lit "a"); DGet (lit "a")] with
    | Ret (xs, _) => xs = [ADone; AShow (RArr (lit ">i4") 1 [x00; x00; x00; x07]); AShow (RArr (lit ">i4") 1 [x07; x00; x00; x00])]
    | _ => False end) by (vm_compute; reflexivity).
  destruct (py_attr_run ex_e ex_alloc (ex_f, ex_b) [DSet (lit "a") (VArr (lit ">i4") 1 [x00; x00; x00; x07]); DGet (lit "a"); DGet (lit "a")]) as [[xs st]| |] eqn:E; try contradiction.
  subst xs. exists ex_e, ex_f, ex_b, (lit "a"), st. exact E.
Qed.

(* A list with a string of 100000 bytes or more: the type, eight characters
   with its NUL, loses its last digit, and the string nine tenths of its
   bytes. No exception is raised. *)
Theorem C78_long_cut : forall e alloc b m name s, alloc_ok alloc -> as_ok (e_me e) (b_attrset b) m ->
  as_bufused (b_attrset b) + zlen name <= 2 ^ 60 -> name_ok name -> has_blank name = false ->
  100000 <= zlen s < 1000000 ->
  exists b', py_attr_set e alloc b name (VStrs [s]) = Ret (PyRet tt, b') /\
    py_attr_get e alloc b' name = Ret (PyRet (RStrs [strip_nul (firstn (Z.to_nat (zlen s / 10)) s)]), b').
Proof. exact long_cut. Qed.
Lemma some_string n : 0 <= n -> exists s, zlen s = n /\ last s x01 <> x00.
Proof.
  intros Hn. exists (repeat "a"%byte (Z.to_nat n)). split; [unfold zlen; rewrite repeat_length, Z2Nat.id; lia|].
  induction (Z.to_nat n) as [|k IH]; [discriminate|]. destruct k as [|k]; [discriminate|]. exact IH.
Qed.
Lemma strip_short k s : 0 <= k -> zlen (strip_nul (firstn (Z.to_nat k) s)) <= k.
Proof.
  intros Hk. assert (Hd : forall l, (length (drop_nul l) <= length l)%nat) by (clear; induction l as [|c l IH]; cbn [drop_nul length]; [lia|]; destruct (Byte.eqb c x00); cbn [length]; lia).
  unfold strip_nul, zlen. rewrite rev_length. pose proof (Hd (rev (firstn (Z.to_nat k) s))) as Hx. rewrite rev_length in Hx. pose proof (firstn_le_length (Z.to_nat k) s). lia.
Qed.
Theorem C78_long_refuted : exists e alloc b name s b' r, last s x01 <> x00 /\
  py_attr_set e alloc b name (VStrs [s]) = Ret (PyRet tt, b') /\ py_attr_get e alloc b' name = Ret (PyRet (RStrs [r]), b') /\ zlen r <= 10000 < zlen s.
Proof.
  destruct (some_string 100000) as (s & Hs & Hl); [lia|].
  destruct (long_cut ex_e ex_alloc ex_b [] (lit "k") s) as (b' & E1 & E2).
  - exact ex_alloc_ok.
  - apply create_ok.
  - discriminate.
  - split; [discriminate|apply not_in_dec; reflexivity].
  - reflexivity.
  - lia.
  - rewrite Hs in E2. change (100000 / 10) with 10000 in E2. pose proof (strip_short 10000 s ltac:(lia)) as Hx.
    set (k := 10000) in *. set (r := strip_nul (firstn (Z.to_nat k) s)) in *. clearbody r.
    exists ex_e, ex_alloc, ex_b, (lit "k"), s, b', r. split; [exact Hl|]. split; [exact E1|]. split; [exact E2|]. lia.
Qed.

Print Assumptions C78_dict_partial.
Print Assumptions C78_last_value_partial.
Print Assumptions C78_deleted_returns.
Print Assumptions C78_deleted_refuted.
Print Assumptions C78_order_refuted.
Print Assumptions C78_long_cut.
Print Assumptions C78_long_refuted.
