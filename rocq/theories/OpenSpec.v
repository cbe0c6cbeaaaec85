(* Specifications about creating, growing, flushing and opening blocks. *)
From Coq.Strings Require Import Byte String.
From Coq Require Import List ZArith Bool.
From Verif Require Import Base Dtype Cast Array FS Fmt Attr Block Spec AttrSpec.
Import ListNotations.
Open Scope Z_scope.

(* Two handles describe the same table: type, width, files, offsets, size and
   the checksum of every file. *)
Record same_table (b1 b2 : block) : Prop := {
  st_dtype : b_dtype b1 = b_dtype b2;
  st_nmemb : b_nmemb b1 = b_nmemb b2;
  st_base : b_base b1 = b_base b2;
  st_Nfile : b_Nfile b1 = b_Nfile b2;
  st_fsize : b_fsize b1 = b_fsize b2;
  st_foffset : b_foffset b1 = b_foffset b2;
  st_size : b_size b1 = b_size b2;
  st_cks : firstn (Z.to_nat (b_Nfile b1)) (b_fchecksum b1) =
           firstn (Z.to_nat (b_Nfile b2)) (b_fchecksum b2)
}.

(* An element type the header can hold: accepted by the type check, at most 7
   characters, none of them white space or NUL. *)
Definition header_type (d : bytes) : Prop :=
  dtype_isvalid d = true /\ (length d <= 7)%nat /\ Forall (fun c => is_space c = false /\ c <> x00) d.

(* The directory of a block: it exists, and no directory stands in the place
   of one of the block's files. *)
Definition block_dir (f : fs) (base : bytes) : Prop :=
  fs_get f (resolve base) = Some Dir /\
  fs_get f (header_path base) <> Some Dir /\
  fs_get f (attr2_path base) <> Some Dir /\
  forall i, 0 <= i -> fs_get f (data_path base i) <> Some Dir.

(* The name of an ordinary block: not the meta block of a file, at most 8192
   characters, without blanks. *)
Definition block_name (base : bytes) : Prop :=
  is_meta base = false /\ (length base <= Z.to_nat 8192)%nat /\ has_blank base = false.

(* Files other than those listed are the same. *)
Definition only_changes (f f' : fs) (ps : path -> Prop) : Prop :=
  forall p, ~ ps p -> fs_get f' p = fs_get f p.

(* The text printf "%g" produces has no newline and no NUL. *)
Definition g_clean (e : env) : Prop := forall z, Forall (fun c => c <> x0a /\ c <> x00) (e_fg e z).

(* An attribute the attr-v2 file can hold: non-empty name without blanks and
   NUL; a type of the machine's byte order without blanks and NUL; at least
   one element; less than 2^30 bytes. *)
Definition word (t : bytes) : Prop :=
  t <> [] /\ Forall (fun c => c <> " "%byte /\ c <> x09 /\ c <> x0a /\ c <> x00) t.
Record durable (me : endian) (name : bytes) (v : aval) : Prop := {
  du_name : word name;
  du_type : word (av_dtype v);
  du_order : dt_native me (av_dtype v) = true;
  du_count : 0 < av_nmemb v < 2 ^ 31;
  du_size : zlen (av_data v) < 2 ^ 30
}.

(* File sizes a caller may ask for: not negative, fewer than 2^63 rows in all,
   a number of files that fits an int. *)
Definition layout_ok (sizes : list Z) : Prop :=
  Forall (fun s => 0 <= s) sizes /\ zsum sizes < 2 ^ 63 /\ zlen sizes < 2 ^ 31.

(* What a header must satisfy for open to accept it. *)
Definition acceptable (d : bytes) (nmemb N : Z) : bool :=
  dtype_isvalid d && (0 <=? nmemb) && (N <=? 2 ^ 24).

(* A header whose element type has at most 7 characters. *)
Definition short_type (c : bytes) : Prop :=
  forall s1 tok s2, scan_lit (lit " DTYPE: ") c = Some s1 -> scan_s s1 = Some (tok, s2) -> (length tok <= 7)%nat.
