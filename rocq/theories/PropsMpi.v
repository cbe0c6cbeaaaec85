(* Property C34: serialised handles. *)
From Coq.Strings Require Import Byte String.
From Coq Require Import List ZArith Lia Bool.
From Verif Require Import Base BaseFacts Dtype Cast Array FS Fmt Attr Block Pack Spec AttrSpec PackSpec
  AttrFacts PackFacts Ex PropsAttr.
Import ListNotations.
Open Scope Z_scope.

(* ------------------------------------------------------------------ C34 *)
(* A handle is packed on one process and unpacked on another, where the
   attribute buffer lands at any address nbase and unused bytes are arbitrary.
   Its attributes were left by any operations os. The copy is the same block,
   shows the same attributes, and behaves the same under further operations
   os2. *)
Theorem C34_handle : forall junk me nbase ra a os os2 s d b rcs,
  Forall (aop_ok me) os -> Forall type_string os -> Forall (aop_ok me) os2 ->
  zsum (map (aop_size me) os) + zsum (map (aop_size me) os2) <= 2 ^ 61 ->
  arun ra me (attrset_create a) os = Ret (rcs, s) ->
  b_attrset b = set_dirty s d -> handle_fits b ->
  exists img b', block_pack junk me b = Ret img /\ block_unpack me nbase img = Ret b' /\ same_handle b b' /\
    (forall name, attr_shows (b_attrset b') name (snd (aspecs me no_attrs os) name)) /\
    attr_names (b_attrset b') = attr_names (b_attrset b) /\
    exists s2, arun ra me (b_attrset b') os2 = Ret (fst (aspecs me (snd (aspecs me no_attrs os)) os2), s2) /\
      forall name, attr_shows s2 name (snd (aspecs me (snd (aspecs me no_attrs os)) os2) name).
Proof. exact handle_round_trip. Qed.

Example C34_example :
  Forall (aop_ok LE) ex_aops /\ Forall type_string ex_aops /\
  zsum (map (aop_size LE) ex_aops) + zsum (map (aop_size LE) ex_aops) <= 2 ^ 61 /\
  exists s, arun (fun x _ => x + 10000) LE (attrset_create 7) ex_aops = Ret ([0; 0; 0; -1; 0; -1; 0], s) /\
    handle_fits (mkBlock (lit ">i4") 2 (lit "d/blk") 5 [2; 0; 3; 0] [0; 2; 2; 5] [7; 0; 4000000000; 0] 3 (set_dirty s true) true) /\
    handle_fits (mkBlock (lit "") 0 (lit "d/header") 0 [] [] [] 0 (set_dirty s false) false).
Proof.
  split; [exact ex_aops_ok|]. split; [each ltac:(first [exact I|apply not_in_dec; reflexivity])|]. split; [vm_compute; discriminate|].
  destruct (C26_attribute_map (fun x _ => x + 10000) LE 7 ex_aops ex_aops_ok) as (s & E & _); [vm_compute; discriminate|].
  exists s. split; [rewrite E; f_equal; f_equal; vm_compute; reflexivity|].
  split; constructor; cbn [b_dtype b_nmemb b_base b_size b_Nfile b_fsize b_foffset b_fchecksum]; try lia;
    try (split; [apply not_in_dec; reflexivity|apply Nat.leb_le; reflexivity]);
    split; try (left; reflexivity); try (right; reflexivity); each ltac:(lia).
Qed.

Definition mpi_theorems := (C34_handle, C34_example).
Print Assumptions mpi_theorems.
