(* Handles as byte strings, for sending them to other processes. *)
From Coq.Strings Require Import Byte String.
From Coq Require Import List ZArith Bool.
From Verif Require Import Base Dtype Cast Array FS Fmt Attr Block.
Import ListNotations.
Open Scope Z_scope.
Local Open Scope out_scope.

(* Structures are laid out as on LP64 machines. Padding, pointers and
   uninitialised memory have the indeterminate contents junk tag 0, junk tag 1,
   ... where tag distinguishes the places. Alignment is not modelled: the
   attribute list is accessed at an unaligned address in bigfile.c:1812. *)
Definition junk_bytes (junk : nat -> nat -> byte) (tag n : nat) : bytes := map (junk tag) (seq 0 n).

(* char dtype[8] *)
Definition char8 (junk : nat -> nat -> byte) (tag : nat) (d : bytes) : bytes :=
  firstn 8 (d ++ x00 :: junk_bytes junk tag 8).
Definition enc_bool (me : endian) (b : bool) : bytes := nat_enc me 4 (if b then 1 else 0).

(* bigfile.h:14-20 BigAttr, 32 bytes, with the addresses made relative to the
   buffer (bigfile.c:1807-1810). *)
Definition pack_attr (junk : nat -> nat -> byte) (me : endian) (base : Z) (a : attr) : bytes :=
  nat_enc me 4 (at_nmemb a) ++ char8 junk 0 (at_dtype a) ++ junk_bytes junk 1 4 ++
  nat_enc me 8 (at_name a - base) ++ nat_enc me 8 (at_data a - base).
(* bigfile.c:38-49 struct BigAttrSet, 56 bytes; 1794-1820 _big_attrset_pack *)
Definition pack_attrset (junk : nat -> nat -> byte) (me : endian) (s : attrset) : out bytes :=
  buf <- or_ub OOB (load (as_mem s) (as_base s) (Z.to_nat (as_bufused s))) ;;
  Ret (enc_bool me (as_dirty s) ++ junk_bytes junk 2 4 ++ junk_bytes junk 3 8 ++
       nat_enc me 8 (as_bufused s) ++ nat_enc me 8 (as_bufsize s) ++ junk_bytes junk 4 8 ++
       nat_enc me 8 (zlen (as_list s)) ++ nat_enc me 8 (as_listsize s) ++
       buf ++ concat (map (pack_attr junk me (as_base s)) (as_list s))).

(* (Nfile + 1) numbers of w bytes; nothing is copied from a NULL array, which
   is []. A shorter array is read beyond its end. *)
Definition pack_array (junk : nat -> nat -> byte) (tag : nat) (me : endian) (w : nat) (n : Z) (l : list Z) : out bytes :=
  if n + 1 <? 0 then Undef OOB else
  match l with
  | [] => Ret (junk_bytes junk tag (Z.to_nat (n + 1) * w))
  | _ => if zlen l <? n + 1 then Undef OOB
         else Ret (concat (map (nat_enc me w) (firstn (Z.to_nat (n + 1)) l)))
  end.
(* bigfile.c:1844-1880 _big_block_pack; BigBlock (bigfile.h:24-40) has 80
   bytes. *)
Definition block_pack (junk : nat -> nat -> byte) (me : endian) (b : block) : out bytes :=
  attrs <- pack_attrset junk me (b_attrset b) ;;
  fsize <- pack_array junk 10 me 8 (b_Nfile b) (b_fsize b) ;;
  foffset <- pack_array junk 11 me 8 (b_Nfile b) (b_foffset b) ;;
  fchecksum <- pack_array junk 12 me 4 (b_Nfile b) (b_fchecksum b) ;;
  Ret (char8 junk 5 (b_dtype b) ++ nat_enc me 4 (b_nmemb b) ++ junk_bytes junk 6 4 ++ junk_bytes junk 7 8 ++
       nat_enc me 8 (b_size b) ++ junk_bytes junk 8 24 ++ nat_enc me 4 (b_Nfile b) ++ junk_bytes junk 9 4 ++
       junk_bytes junk 13 8 ++ enc_bool me (b_dirty b) ++ junk_bytes junk 14 4 ++
       b_base b ++ [x00] ++ fsize ++ foffset ++ fchecksum ++ attrs).

(* Reading the byte string; beyond its end is out of bounds. *)
Definition rd (n : nat) (l : bytes) : out (bytes * bytes) := or_ub OOB (take n l).
Fixpoint rd_cstr (l : bytes) : out (bytes * bytes) :=
  match l with
  | [] => Undef OOB
  | c :: r => if Byte.eqb c x00 then Ret ([], r) else '(s, r') <- rd_cstr r ;; Ret (c :: s, r')
  end.
Fixpoint rd_array (me : endian) (w : nat) (n : nat) (l : bytes) : out (list Z * bytes) :=
  match n with
  | O => Ret ([], l)
  | S n' => '(x, l1) <- rd w l ;; '(xs, l2) <- rd_array me w n' l1 ;; Ret (nat_val me x :: xs, l2)
  end.
Fixpoint rd_attrs (me : endian) (nbase : Z) (n : nat) (l : bytes) : out (list attr * bytes) :=
  match n with
  | O => Ret ([], l)
  | S n' =>
      '(nm, l1) <- rd 4 l ;;
      '(dt, l2) <- rd 8 l1 ;;
      '(_, l3) <- rd 4 l2 ;;
      '(na, l4) <- rd 8 l3 ;;
      '(da, l5) <- rd 8 l4 ;;
      '(r, l6) <- rd_attrs me nbase n' l5 ;;
      Ret (mkAttr (native_int me nm) (until_nul dt) (nbase + nat_val me na) (nbase + nat_val me da) :: r, l6)
  end.
(* bigfile.c:1822-1842 _big_attrset_unpack; nbase is the address malloc
   returns for the buffer. *)
Definition unpack_attrset (me : endian) (nbase : Z) (l : bytes) : out attrset :=
  '(d, l) <- rd 4 l ;;
  '(_, l) <- rd 12 l ;;
  '(bu, l) <- rd 8 l ;;
  '(bs, l) <- rd 8 l ;;
  '(_, l) <- rd 8 l ;;
  '(lu, l) <- rd 8 l ;;
  '(ls, l) <- rd 8 l ;;
  let bufused := nat_val me bu in
  let bufsize := nat_val me bs in
  let listused := nat_val me lu in
  let listsize := nat_val me ls in
  '(buf, l) <- rd (Z.to_nat bufused) l ;;
  m <- or_ub OOB (store (malloc_mem nbase bufsize) nbase buf) ;;
  if listsize <? listused then Undef OOB else
  '(al, _) <- rd_attrs me nbase (Z.to_nat listused) l ;;
  Ret (mkAS (negb (nat_val me d =? 0)) m nbase bufused bufsize al listsize).
(* bigfile.c:1882-1902 _big_block_unpack *)
Definition block_unpack (me : endian) (nbase : Z) (l : bytes) : out block :=
  '(dt, l) <- rd 8 l ;;
  '(nm, l) <- rd 4 l ;;
  '(_, l) <- rd 12 l ;;
  '(sz, l) <- rd 8 l ;;
  '(_, l) <- rd 24 l ;;
  '(nf, l) <- rd 4 l ;;
  '(_, l) <- rd 12 l ;;
  '(d, l) <- rd 4 l ;;
  '(_, l) <- rd 4 l ;;
  let Nfile := native_int me nf in
  '(base, l) <- rd_cstr l ;;
  if Nfile + 1 <? 0 then Undef OOB else
  '(fsize, l) <- rd_array me 8 (Z.to_nat (Nfile + 1)) l ;;
  '(foffset, l) <- rd_array me 8 (Z.to_nat (Nfile + 1)) l ;;
  '(fchecksum, l) <- rd_array me 4 (Z.to_nat (Nfile + 1)) l ;;
  s <- unpack_attrset me nbase l ;;
  Ret (mkBlock (until_nul dt) (native_int me nm) (strdup base) (nat_val me sz) fsize foffset fchecksum Nfile s
         (negb (nat_val me d =? 0))).
