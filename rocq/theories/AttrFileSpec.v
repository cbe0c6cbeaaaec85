(* The two attribute file formats, as text and bytes. *)
From Coq.Strings Require Import Byte String.
From Coq Require Import List ZArith Bool.
From Verif Require Import Base Dtype Cast Array FS Fmt Attr Block Spec AttrSpec OpenSpec.
Import ListNotations.
Open Scope Z_scope.

(* attr-v2: one line per attribute,
   name, type, number of elements, data in hexadecimal, a comment. *)
Definition v2_line (x : bytes * aval * bytes) : bytes :=
  let '(name, v, comment) := x in
  name ++ lit " " ++ av_dtype v ++ lit " " ++ print_signed (av_nmemb v) ++ lit " "
    ++ hex_print (av_data v) ++ lit " #HUMANE [ " ++ comment ++ lit " ]" ++ [x0a].
Definition v2_file (l : list (bytes * aval * bytes)) : bytes := concat (map v2_line l).

(* attr (legacy): for each attribute the number of elements and the length of
   the name as native ints, the type in 8 bytes padded with NULs, the name, the
   data. *)
Definition v1_record (me : endian) (x : bytes * aval) : bytes :=
  let '(name, v) := x in
  nat_enc me 4 (av_nmemb v) ++ nat_enc me 4 (zlen name) ++
  av_dtype v ++ repeat x00 (8 - length (av_dtype v)) ++ name ++ av_data v.
Definition v1_file (me : endian) (l : list (bytes * aval)) : bytes := concat (map (v1_record me) l).

(* An attribute of a legacy file: any type of at most 8 characters, with a
   name, and of the right size. *)
Record legacy (me : endian) (x : bytes * aval) : Prop := {
  lg_name : word (fst x);
  lg_len : zlen (fst x) < 2 ^ 31;
  lg_type : dtype_isvalid (av_dtype (snd x)) = true;
  lg_tlen : (length (av_dtype (snd x)) <= 8)%nat;
  lg_nul : nul_free (av_dtype (snd x));
  lg_width : 0 < itemsize me (av_dtype (snd x));
  lg_count : 0 < av_nmemb (snd x);
  lg_data : zlen (av_data (snd x)) = itemsize me (av_dtype (snd x)) * av_nmemb (snd x);
  lg_size : zlen (av_data (snd x)) < 2 ^ 31
}.

(* The value found in a list, the last one if the name occurs repeatedly; its
   type is shown in normal form. *)
Fixpoint last_of (me : endian) (l : list (bytes * aval)) (name : bytes) : option aval :=
  match l with
  | [] => None
  | (n, v) :: r =>
      match last_of me r name with
      | Some x => Some x
      | None => if bytes_eqb name n
                then Some (mkAval (dtype_normalize me (av_dtype v)) (av_nmemb v) (av_data v)) else None
      end
  end.

(* Bytes of buffer a list of attributes needs. *)
Definition room (l : list (bytes * aval)) : Z := zsum (map (fun x => zlen (av_data (snd x)) + zlen (fst x) + 1) l).

Definition count_lines (p : bytes) : nat := length (filter (fun c => Byte.eqb c x0a) p).
