(* Vocabulary for the command line utilities. *)
From Coq.Strings Require Import Byte String.
From Coq Require Import List ZArith.
From Verif Require Import Base Dtype Array FS Fmt Attr Block File Spec AttrSpec OpenSpec SessSpec HistSpec FileSpec.
Import ListNotations.
Open Scope Z_scope.
Local Open Scope out_scope.

(* A utility can make the block blk, of rows of nmemb elements of type d, in
   the file path: nothing but directories on the way, a proper block name
   whose place is free, a type the header can hold, and rows that fit the
   transfer buffer. *)
Record makeable (e : env) (f : fs) (path blk d : bytes) (nmemb : Z) : Prop := {
  mk_path : path <> [] /\ (length path <= Z.to_nat 8192)%nat;
  mk_way : way_free f (resolve path);
  mk_name : block_name (path_join path blk);
  mk_free : creatable f (path_join path blk);
  mk_attr1 : fs_get f (attr1_path (path_join path blk)) = None;
  mk_items : 0 < nmemb < 2 ^ 31;
  mk_type : header_type (dtype_normalize (e_me e) d);
  mk_dt : dt_ok (e_me e) (dtype_normalize (e_me e) d);
  mk_chunk : itemsize (e_me e) (dtype_normalize (e_me e) d) * nmemb <= e_chunk e;
  mk_width : itemsize (e_me e) (dtype_normalize (e_me e) d) * nmemb < 2 ^ 31
}.

(* The block blk of the file path can be opened and has these rows, of nmemb
   elements of type dt, and valid checksums: reading them all returns them. *)
Definition block_has (e : env) (f : fs) (path blk dt : bytes) (nmemb : Z) (sizes : list Z) (rows : list bytes) : Prop :=
  big_file_open f path = Some path /\
  exists b a m, big_file_open_block e f path blk = Ret (Some b) /\
    b_dtype b = dt /\ b_nmemb b = nmemb /\ b_size b = zlen rows /\ has_layout b sizes /\
    big_block_read_simple e f b 0 (b_size b) None = Ret (0, Some (a, m)) /\
    a_dtype a = dt /\ a_dims a = [zlen rows; nmemb] /\ load m (a_data a) (length (concat rows)) = Some (concat rows) /\
    sums_ok f (path_join path blk) sizes (b_fchecksum b).

(* The block blk of the file path shows exactly these attributes when opened. *)
Definition block_attrs (e : env) (f : fs) (path blk : bytes) (M : amap) : Prop :=
  exists b names, big_file_open_block e f path blk = Ret (Some b) /\
    (forall name, attr_shows (b_attrset b) name (M name)) /\
    attr_names (b_attrset b) = Ret names /\ sorted_names names /\ forall name, In name names <-> M name <> None.

(* The life of a block: in each round its rows or its attributes are used, and
   it is closed and opened again. *)
Inductive round : Type :=
| Rows (os : list hop)
| Attrs (os : list sop).
Definition run_round (e : env) (st : fs * block) (r : round) : out (fs * block) :=
  match r with
  | Rows os => '(_, st) <- hrun e st (os ++ [HReopen]) ;; Ret st
  | Attrs os => '(_, st) <- srun e st (os ++ [SReopen]) ;; Ret st
  end.
Fixpoint run_rounds (e : env) (st : fs * block) (rs : list round) : out (fs * block) :=
  match rs with
  | [] => Ret st
  | r :: l => st <- run_round e st r ;; run_rounds e st l
  end.
(* A file and a block are created; the block lives and is closed. *)
Definition make_and_use (e : env) (f : fs) (path blk d : bytes) (nmemb : Z) (sizes : list Z) (rs : list round) : out (option (Z * fs)) :=
  let '(f, of) := big_file_create f path in
  match of with
  | None => Ret None
  | Some bf =>
      '(f, ob) <- big_file_create_block e f bf blk (Some d) nmemb (zlen sizes) sizes ;;
      match ob with
      | None => Ret None
      | Some b => '(f, b) <- run_rounds e (f, b) rs ;; r <- big_block_close e f b ;; Ret (Some r)
      end
  end.

(* What it should hold after that: the table of its rows and its attributes. *)
Definition attrs_after (me : endian) (M : amap) (os : list sop) : amap :=
  saved (sflush (snd (sspecs me (mkS M M false) os))).
Inductive lives (me : endian) (dt : bytes) (nmemb : Z) : table -> amap -> list round -> table -> amap -> Prop :=
| lv_nil t M : lives me dt nmemb t M [] t M
| lv_rows t M os xs t1 rs t2 M2 : hspecs me dt nmemb t os xs t1 -> lives me dt nmemb t1 M rs t2 M2 ->
    lives me dt nmemb t M (Rows os :: rs) t2 M2
| lv_attrs t M os rs t2 M2 : lives me dt nmemb t (attrs_after me M os) rs t2 M2 ->
    lives me dt nmemb t M (Attrs os :: rs) t2 M2.
(* Legal calls. *)
Fixpoint rounds_ok (me : endian) (dt : bytes) (nmemb : Z) (sizes : list Z) (rs : list round) : Prop :=
  match rs with
  | [] => True
  | Rows os :: r => history_ok me dt nmemb sizes os /\ rounds_ok me dt nmemb (fold_left sizes_after os sizes) r
  | Attrs os :: r => Forall (sop_ok me) os /\ rounds_ok me dt nmemb sizes r
  end.
(* Bytes of attributes set. *)
Fixpoint attr_bytes (me : endian) (rs : list round) : Z :=
  match rs with
  | [] => 0
  | Rows _ :: r => attr_bytes me r
  | Attrs os :: r => zsum (map (sop_size me) os) + attr_bytes me r
  end.
