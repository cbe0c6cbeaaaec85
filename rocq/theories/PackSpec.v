(* What it means for a handle to survive a transfer. *)
From Coq.Strings Require Import Byte String.
From Coq Require Import List ZArith Bool.
From Verif Require Import Base Dtype Cast Array FS Fmt Attr Block Spec AttrSpec.
Import ListNotations.
Open Scope Z_scope.

(* An array of n + 1 numbers below hi, or none. *)
Definition array_fits (n hi : Z) (l : list Z) : Prop :=
  (l = [] \/ zlen l = n + 1) /\ Forall (fun z => 0 <= z < hi) l.
(* The members of the handle are within the ranges of their C types; a
   metadata-only block has no arrays and no files. *)
Record handle_fits (b : block) : Prop := {
  hf_dtype : nul_free (b_dtype b) /\ (length (b_dtype b) < 8)%nat;
  hf_nmemb : - 2 ^ 31 <= b_nmemb b < 2 ^ 31;
  hf_base : nul_free (b_base b) /\ (length (b_base b) <= Z.to_nat 8192)%nat;
  hf_size : 0 <= b_size b < 2 ^ 64;
  hf_Nfile : 0 <= b_Nfile b < 2 ^ 31;
  hf_fsize : array_fits (b_Nfile b) (2 ^ 64) (b_fsize b);
  hf_foffset : array_fits (b_Nfile b) (2 ^ 64) (b_foffset b);
  hf_fchecksum : array_fits (b_Nfile b) (2 ^ 32) (b_fchecksum b)
}.
(* The same block, seen from another process. *)
Record same_handle (b b' : block) : Prop := {
  sh_dtype : b_dtype b' = b_dtype b;
  sh_nmemb : b_nmemb b' = b_nmemb b;
  sh_base : b_base b' = b_base b;
  sh_size : b_size b' = b_size b;
  sh_Nfile : b_Nfile b' = b_Nfile b;
  sh_fsize : b_fsize b <> [] -> b_fsize b' = b_fsize b;
  sh_foffset : b_foffset b <> [] -> b_foffset b' = b_foffset b;
  sh_fchecksum : b_fchecksum b <> [] -> b_fchecksum b' = b_fchecksum b;
  sh_dirty : b_dirty b' = b_dirty b;
  sh_adirty : as_dirty (b_attrset b') = as_dirty (b_attrset b)
}.

(* The element types in the calls are C strings. *)
Definition type_string (o : aop) : Prop := match o with ASet _ _ _ dtype _ => nul_free dtype | ARemove _ => True end.

(* A handle that can be sent to other ranks: it fits, and its attributes were
   left by some operations on an empty set. *)
Definition transferable (me : endian) (b : block) : Prop :=
  handle_fits b /\ exists ra a os s d rcs, Forall (aop_ok me) os /\ Forall type_string os /\ zsum (map (aop_size me) os) <= 2 ^ 61 /\
    arun ra me (attrset_create a) os = Ret (rcs, s) /\ b_attrset b = set_dirty s d.
(* The same block with the same attributes. *)
Definition copy_of (b b' : block) : Prop :=
  same_handle b b' /\ attr_names (b_attrset b') = attr_names (b_attrset b) /\
  exists m, (forall name, attr_shows (b_attrset b) name (m name)) /\ (forall name, attr_shows (b_attrset b') name (m name)).
(* The handle of rank i after rank 0 has sent b: rank 0 keeps its own. *)
Definition handed (b : block) (i : nat) (b' : block) : Prop := copy_of b b' /\ (i = 0%nat -> b' = b).
(* Arguments of a block creation within the ranges of their C types. *)
Definition create_fits (base : bytes) (dtype : option bytes) (nmemb Nfile : Z) (fsize : list Z) : Prop :=
  nul_free base /\ - 2 ^ 31 <= nmemb < 2 ^ 31 /\ Nfile < 2 ^ 31 /\ Forall (fun z => 0 <= z < 2 ^ 64) fsize /\
  match dtype with Some d => nul_free d | None => True end.
(* Arguments of a growth: the handle has its arrays, and the sizes and the
   number of files stay within the ranges of their C types. *)
Definition grow_fits (b : block) (ngrow : Z) (fsize : list Z) : Prop :=
  b_fsize b <> [] /\ b_fchecksum b <> [] /\ 0 <= ngrow /\ b_Nfile b + ngrow < 2 ^ 31 /\ Forall (fun z => 0 <= z < 2 ^ 64) fsize.
