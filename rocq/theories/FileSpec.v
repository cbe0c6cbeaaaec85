(* Specifications of the file layer: directories and listings. *)
From Coq.Strings Require Import Byte String.
From Coq Require Import List ZArith Bool.
From Verif Require Import Base Dtype Cast Array FS Fmt Attr Block File.
Import ListNotations.
Open Scope Z_scope.

Definition prefix_of (p q : path) : Prop := exists r, q = p ++ r.

(* Nothing that exists changes, and only directories leading to path p are
   new. *)
Definition only_new_dirs (f f' : fs) (p : path) : Prop :=
  (forall q n, fs_get f q = Some n -> fs_get f' q = Some n) /\
  (forall q n, fs_get f q = None -> fs_get f' q = Some n -> n = Dir /\ prefix_of q p).

(* No regular file stands on the way to p. *)
Definition way_free (f : fs) (p : path) : Prop :=
  forall q c, prefix_of q p -> fs_get f q <> Some (File c).
(* All directories leading to p exist. *)
Definition way_made (f : fs) (p : path) : Prop :=
  forall q, prefix_of q p -> fs_get f q = Some Dir.

(* ------------------------------------------------------------------ *)
(* A file system that is a tree: every entry is in a directory, and names are
   not empty, not "." and without slashes (the component "/" is the absolute
   root). *)
Definition entry_name (c : bytes) : Prop := is_dot c = false /\ ~ In "/"%byte c.
Definition tree (f : fs) : Prop :=
  forall p c, fs_get f (p ++ [c]) <> None ->
    fs_get f p = Some Dir /\ (entry_name c \/ p = [] /\ c = lit "/").

(* There is something named "header" in directory p. *)
Definition has_header (f : fs) (p : path) : Prop := fs_get f (p ++ [lit "header"]) <> None.
(* The blocks below directory R that a listing shows: no name on the way
   begins with a dot, and no directory on the way, R excluded, is a block. *)
Definition shown_name (c : bytes) : Prop := entry_name c /\ hd_error c <> Some "."%byte.
Record shown (f : fs) (R : path) (cs : list bytes) : Prop := {
  sh_some : cs <> [];
  sh_names : Forall shown_name cs;
  sh_block : has_header f (R ++ cs);
  sh_first : forall ds r, cs = ds ++ r -> ds <> [] -> r <> [] -> ~ has_header f (R ++ ds)
}.
(* The name of a block: its components separated by slashes. *)
Fixpoint slashed (cs : list bytes) : bytes :=
  match cs with
  | [] => []
  | [c] => c
  | c :: r => c ++ "/"%byte :: slashed r
  end.

(* The files of a block: header, attributes, data. *)
Definition own_file (base : bytes) (p : path) : Prop :=
  p = header_path base \/ p = attr2_path base \/ exists i, 0 <= i /\ p = data_path base i.
(* A block can be created under this name: nothing but directories on the way,
   and none in the place of the block's files. *)
Definition creatable (f : fs) (base : bytes) : Prop :=
  way_free f (resolve base) /\ forall p, own_file base p -> fs_get f p <> Some Dir.
