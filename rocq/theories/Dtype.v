(* Element types: _dtype_normalize, dtype_isvalid, itemsize, kind. *)
From Coq.Strings Require Import Byte String.
From Coq Require Import List ZArith Bool.
From Verif Require Import Base.
Import ListNotations.
Open Scope Z_scope.

(* The byte order of the machine running the library. *)
Inductive endian : Type := LE | BE.

(* bigfile.c:982-988 MACHINE_ENDIAN_F: '<' on little-endian machines,
   '>' on big-endian ones. *)
Definition machine_char (me : endian) : byte :=
  match me with LE => "<"%byte | BE => ">"%byte end.

Definition is_order_char (c : byte) : bool :=
  Byte.eqb c "<" || Byte.eqb c ">" || Byte.eqb c "|" || Byte.eqb c "=".

(* bigfile.c:990-1018 _dtype_normalize. [src] is a C string (no NUL). The
   result is the C string left in the 8 byte field dst: memset and strncpy
   pad with NUL, dst[7] is always NUL, hence at most 7 characters. *)
Definition dtype_normalize (me : endian) (src : bytes) : bytes :=
  let dst :=
    match src with
    | c :: _ => if is_order_char c then firstn 7 src
                else firstn 7 ("="%byte :: firstn 7 src)
    | [] => ["="%byte]
    end in
  match dst with
  | c :: r => if Byte.eqb c "=" || Byte.eqb c "|"
              then machine_char me :: r else dst
  | [] => []
  end.

Definition is_digit (c : byte) : bool :=
  (b2z "0" <=? b2z c) && (b2z c <=? b2z "9").
(* isspace() in the C locale. *)
Definition is_space (c : byte) : bool :=
  Byte.eqb c " " || ((9 <=? b2z c) && (b2z c <=? 13)).

Fixpoint drop_space (l : bytes) : bytes :=
  match l with
  | c :: r => if is_space c then drop_space r else l
  | [] => []
  end.

(* Longest run of decimal digits: value and number of characters read. *)
Fixpoint dec_digits (acc : Z) (l : bytes) : Z :=
  match l with
  | c :: r => if is_digit c then dec_digits (10 * acc + (b2z c - b2z "0")) r
              else acc
  | [] => acc
  end.

(* atoi on strings short enough not to overflow (the callers pass at most
   5 characters). *)
Definition atoi (l : bytes) : Z :=
  match drop_space l with
  | c :: r => if Byte.eqb c "-" then - dec_digits 0 r
              else if Byte.eqb c "+" then dec_digits 0 r
              else dec_digits 0 (c :: r)
  | [] => 0
  end.

(* bigfile.c:1052-1058 big_file_dtype_itemsize. The normalised string may
   have fewer than two characters, then &ndtype[2] points at NULs. *)
Definition itemsize (me : endian) (dtype : bytes) : Z :=
  atoi (skipn 2 (dtype_normalize me dtype)).

(* bigfile.c:1060-1066 big_file_dtype_kind. 0 stands for the NUL char. *)
Definition dtype_kind (me : endian) (dtype : bytes) : byte :=
  match dtype_normalize me dtype with
  | _ :: k :: _ => k
  | _ => x00
  end.

(* dtype + 1: type and width without the byte order. *)
Definition suffix (dtype : bytes) : bytes := tl dtype.

(* bigfile.c:1022-1050 dtype_isvalid. *)
Definition dtype_isvalid (dtype : bytes) : bool :=
  match dtype with
  | c :: k :: w =>
      is_order_char c
      && (Byte.eqb k "S" || Byte.eqb k "b" || Byte.eqb k "i"
          || Byte.eqb k "f" || Byte.eqb k "u" || Byte.eqb k "c")
      && negb ((16 <? atoi w) || (atoi w <=? 0))
  | _ => false
  end.
