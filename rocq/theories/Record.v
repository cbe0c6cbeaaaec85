(* Record types and record I/O (bigfile-record.c). *)
From Coq.Strings Require Import Byte String.
From Coq Require Import List ZArith Bool.
From Verif Require Import Base Dtype Cast Array FS Fmt Attr Block File.
Import ListNotations.
Open Scope Z_scope.
Local Open Scope out_scope.

(* bigfile.h:258-264 BigRecordField. rf_dtype holds the characters of the
   8-byte array up to the terminator; 8 characters mean that there is none. *)
Record rfield : Type := mkField {
  rf_name : option bytes;
  rf_dtype : bytes;
  rf_nmemb : Z;
  rf_offset : Z;
  rf_elsize : Z
}.
(* bigfile.h:266-270 BigRecordType; nfield is the length of rt_fields. *)
Record rtype : Type := mkRtype { rt_fields : list rfield; rt_itemsize : Z }.

(* bigfile-record.c:11-21 big_record_type_clear. *)
Definition rtype_clear (rt : rtype) : rtype := mkRtype [] (rt_itemsize rt).

Definition null_field : rfield := mkField None [] 0 0 0.

(* bigfile-record.c:23-45 big_record_type_set. i is compared as size_t, so a
   negative index asks for a huge reallocation. *)
Definition rtype_set (rt : rtype) (i : Z) (name dtype : bytes) (nmemb : Z) : out rtype :=
  if i <? 0 then Undef OOB else
  let fl := rt_fields rt in
  let fl1 := if zlen fl <=? i then fl ++ repeat null_field (Z.to_nat (i + 1) - length fl) else fl in
  let old := nth (Z.to_nat i) fl1 null_field in
  Ret (mkRtype (upd fl1 (Z.to_nat i)
         (mkField (Some (strdup name)) (firstn 8 dtype) nmemb (rf_offset old) (rf_elsize old))) (rt_itemsize rt)).

(* bigfile-record.c:47-56 big_record_type_add: the index and the new type. *)
Definition rtype_add (rt : rtype) (name dtype : bytes) (nmemb : Z) : out (Z * rtype) :=
  rt' <- rtype_set rt (zlen (rt_fields rt)) name dtype nmemb ;;
  Ret (zlen (rt_fields rt), rt').

(* The dtype member read as a string: without a terminator the read runs out
   of the array. *)
Definition field_dtype (fd : rfield) : out bytes :=
  if (length (rf_dtype fd) <? 8)%nat then Ret (rf_dtype fd) else Undef OOB.

(* bigfile-record.c:58-74 big_record_type_complete: offsets are int. *)
Fixpoint complete_loop (me : endian) (fl : list rfield) (offset : Z) : out (list rfield * Z) :=
  match fl with
  | [] => Ret ([], offset)
  | fd :: r =>
      match rf_name fd with
      | None => Undef AbortCall
      | Some _ =>
          dt <- field_dtype fd ;;
          let es := itemsize me dt in
          let w := es * rf_nmemb fd in
          if (2 ^ 31 <=? Z.abs w) || (2 ^ 31 <=? Z.abs (offset + w)) then Undef IntOverflow else
          '(r', total) <- complete_loop me r (offset + w) ;;
          Ret (mkField (rf_name fd) (rf_dtype fd) (rf_nmemb fd) offset es :: r', total)
      end
  end.
Definition rtype_complete (me : endian) (rt : rtype) : out rtype :=
  '(fl, total) <- complete_loop me (rt_fields rt) 0 ;; Ret (mkRtype fl total).

Definition the_field (rt : rtype) (c : Z) : out rfield := or_ub OOB (znth (rt_fields rt) c).

(* bigfile-record.c:76-86 big_record_set: copies from address data. *)
Definition record_set (rt : rtype) (m : mem) (buf i c data : Z) : out mem :=
  fd <- the_field rt c ;;
  if rf_elsize fd * rf_nmemb fd <? 0 then Undef OOB else
  l <- or_ub OOB (load m data (Z.to_nat (rf_elsize fd * rf_nmemb fd))) ;;
  or_ub OOB (store m (buf + (i * rt_itemsize rt + rf_offset fd)) l).
(* bigfile-record.c:88-97 big_record_get: copies to address data. *)
Definition record_get (rt : rtype) (m : mem) (buf i c data : Z) : out mem :=
  fd <- the_field rt c ;;
  if rf_elsize fd * rf_nmemb fd <? 0 then Undef OOB else
  l <- or_ub OOB (load m (buf + (i * rt_itemsize rt + rf_offset fd)) (Z.to_nat (rf_elsize fd * rf_nmemb fd))) ;;
  or_ub OOB (store m data l).

(* bigfile-record.c:99-113 big_record_view_field *)
Definition view_field (me : endian) (rt : rtype) (i : Z) (size buf : Z) : out array :=
  fd <- the_field rt i ;;
  dt <- field_dtype fd ;;
  big_array_init me (buf + rf_offset fd) dt [size; rf_nmemb fd] (Some [rt_itemsize rt; rf_elsize fd]).

(* Loops over the fields stop at the first failure. *)
Fixpoint each_field {A : Type} (body : Z -> A -> out (Z * A)) (n : nat) (i : Z) (st : A) : out (Z * A) :=
  match n with
  | O => Ret (0, st)
  | S n' =>
      '(rc, st') <- body i st ;;
      if rc =? 0 then each_field body n' (i + 1) st' else Ret (-1, st')
  end.

(* bigfile-record.c:115-159 big_file_create_records. mode: true is "w+", false
   "a+" (other strings fail at once). *)
Definition create_field (e : env) (bf : bytes) (rt : rtype) (mode : bool) (Nfile : Z) (fsize : list Z)
    (i : Z) (f : fs) : out (Z * fs) :=
  fd <- the_field rt i ;;
  name <- or_ub NullDeref (rf_name fd) ;;
  dt <- field_dtype fd ;;
  if mode then
    '(f1, ob) <- big_file_create_block e f bf name (Some dt) (rf_nmemb fd) Nfile fsize ;;
    match ob with
    | None => Ret (-1, f1)
    | Some b => '(rc, f2) <- big_block_close e f1 b ;; Ret (if rc =? 0 then 0 else -1, f2)
    end
  else
    ob <- big_file_open_block e f bf name ;;
    match ob with
    | None => Ret (-1, f)
    | Some b =>
        '(rc, f1, b1) <- big_block_grow f b Nfile fsize ;;
        '(rc2, f2) <- big_block_close e f1 b1 ;;
        Ret (if (rc =? 0) && (rc2 =? 0) then 0 else -1, f2)
    end.
Definition create_records (e : env) (f : fs) (bf : bytes) (rt : rtype) (mode : bool) (Nfile : Z) (fsize : list Z)
    : out (Z * fs) :=
  each_field (create_field e bf rt mode Nfile fsize) (length (rt_fields rt)) 0 f.

(* bigfile-record.c:161-203 big_file_write_records *)
Definition write_field (e : env) (bf : bytes) (rt : rtype) (offset size buf : Z) (i : Z) (st : fs * mem)
    : out (Z * (fs * mem)) :=
  let '(f, um) := st in
  a <- view_field (e_me e) rt i size buf ;;
  fd <- the_field rt i ;;
  name <- or_ub NullDeref (rf_name fd) ;;
  ob <- big_file_open_block e f bf name ;;
  match ob with
  | None => Ret (-1, (f, um))
  | Some b =>
      '(rc, p) <- big_block_seek b (mkPtr 0 0 0) offset ;;
      if negb (rc =? 0) then '(_, f1) <- big_block_close e f b ;; Ret (-1, (f1, um)) else
      '(rc2, f1, b1, _, um1) <- big_block_write e f b p a um ;;
      '(rc3, f2) <- big_block_close e f1 b1 ;;
      Ret (if (rc2 =? 0) && (rc3 =? 0) then 0 else -1, (f2, um1))
  end.
Definition write_records (e : env) (f : fs) (bf : bytes) (rt : rtype) (offset size buf : Z) (um : mem)
    : out (Z * (fs * mem)) :=
  each_field (write_field e bf rt offset size buf) (length (rt_fields rt)) 0 (f, um).

(* bigfile-record.c:206-246 big_file_read_records *)
Definition read_field (e : env) (bf : bytes) (rt : rtype) (offset size buf : Z) (i : Z) (st : fs * mem)
    : out (Z * (fs * mem)) :=
  let '(f, um) := st in
  a <- view_field (e_me e) rt i size buf ;;
  fd <- the_field rt i ;;
  name <- or_ub NullDeref (rf_name fd) ;;
  ob <- big_file_open_block e f bf name ;;
  match ob with
  | None => Ret (-1, (f, um))
  | Some b =>
      '(rc, p) <- big_block_seek b (mkPtr 0 0 0) offset ;;
      if negb (rc =? 0) then '(_, f1) <- big_block_close e f b ;; Ret (-1, (f1, um)) else
      '(rc2, _, um1) <- big_block_read e f b p a um ;;
      '(rc3, f2) <- big_block_close e f b ;;
      Ret (if (rc2 =? 0) && (rc3 =? 0) then 0 else -1, (f2, um1))
  end.
Definition read_records (e : env) (f : fs) (bf : bytes) (rt : rtype) (offset size buf : Z) (um : mem)
    : out (Z * (fs * mem)) :=
  each_field (read_field e bf rt offset size buf) (length (rt_fields rt)) 0 (f, um).
