(* Text of elements, and the command line utilities bigfile-cat and
   bigfile-set-attr. *)
From Coq.Strings Require Import Byte String.
From Coq Require Import List ZArith Lia Bool.
From Verif Require Import Base Dtype Cast Array FS Fmt Attr Block File.
Import ListNotations.
Open Scope Z_scope.
Local Open Scope out_scope.

(* "%lf" and "%f": bits of the number read, and the rest; left abstract. *)
Record fscan : Type := mkScan { scan_lf : bytes -> option (Z * bytes); scan_f : bytes -> option (Z * bytes) }.

(* bigfile.c:1222-1245: the bytes a native element of type ndtype gets from
   the text with the default format. None: no such type (return -1). If sscanf
   fails the local `converted' keeps indeterminate bytes, which are then
   copied. "%ld" and "%lu" store what strtol and strtoul return. *)
Definition scan_num (n : nat) (me : endian) (r : option (Z * bytes)) : out (option bytes) :=
  match r with
  | Some (v, _) => Ret (Some (nat_enc me n v))
  | None => Undef UninitRead
  end.
Definition scan_pair (n : nat) (me : endian) (sc : bytes -> option (Z * bytes)) (s : bytes) : out (option bytes) :=
  match sc s with
  | None => Undef UninitRead
  | Some (x, s) =>
      match scan_lit (lit " + ") s with
      | None => Undef UninitRead
      | Some s => match sc s with
                  | None => Undef UninitRead
                  | Some (y, _) => Ret (Some (nat_enc me n x ++ nat_enc me n y))
                  end
      end
  end.
Definition parse_native (sc : fscan) (me : endian) (ndtype text : bytes) : out (option bytes) :=
  let suf := suffix ndtype in
  let dec sat := match scan_dec text with Some (v, r) => Some (sat v, r) | None => None end in
  if bytes_eqb suf (lit "a1") then
    match text with c :: _ => Ret (Some [c]) | [] => Undef UninitRead end
  else if bytes_eqb suf (lit "i8") then scan_num 8 me (dec sat_long)
  else if bytes_eqb suf (lit "i4") then scan_num 4 me (scan_d text)
  else if bytes_eqb suf (lit "u8") then scan_num 8 me (dec sat_ulong)
  else if bytes_eqb suf (lit "u4") then scan_num 4 me (scan_u text)
  else if bytes_eqb suf (lit "f8") then scan_num 8 me (scan_lf sc text)
  else if bytes_eqb suf (lit "f4") then scan_num 4 me (scan_f sc text)
  else if bytes_eqb suf (lit "c8") then scan_pair 4 me (scan_f sc) text
  else if bytes_eqb suf (lit "c16") then scan_pair 8 me (scan_lf sc) text
  else Ret None.

(* bigfile.c:1208-1247 big_file_dtype_parse with fmt = NULL: stores one
   element of type dtype at address data of m; the code of the conversion is
   ignored. *)
Definition dtype_parse (sc : fscan) (me : endian) (text dtype : bytes) (m : mem) (data : Z) : out (Z * mem) :=
  let nd := native_of me dtype in
  r <- parse_native sc me nd text ;;
  match r with
  | None => Ret (-1, m)
  | Some l =>
      cm <- or_ub OOB (store (malloc_mem 0 128) 0 l) ;;
      '(_, m', _) <- dtype_convert_simple me m data dtype cm 0 nd 1 ;;
      Ret (0, m')
  end.

(* ------------------------------------------------------------------ *)
(* utils/bigfile-cat.c:100-115: what is printed for the rows read. Binary:
   fwrite. Text: one element after the other, each followed by a blank, and a
   line end after each row; the local str is a C string. The option -f is not
   modelled (fmt = NULL). *)
Fixpoint text_elems (e : env) (m : mem) (it : iter) (n : nat) : out (bytes * mem * iter) :=
  match n with
  | O => Ret ([], m, it)
  | S k =>
      '(t, m) <- dtype_format (e_fg e) (e_me e) m (it_ptr it) (a_dtype (it_arr it)) ;;
      it <- iter_advance it ;;
      '(r, m, it) <- text_elems e m it k ;;
      Ret (until_nul t ++ lit " " ++ r, m, it)
  end.
Fixpoint text_rows (e : env) (m : mem) (it : iter) (nmemb : nat) (n : nat) : out bytes :=
  match n with
  | O => Ret []
  | S k =>
      '(t, m, it) <- text_elems e m it nmemb ;;
      r <- text_rows e m it nmemb k ;;
      Ret (t ++ x0a :: r)
  end.
Definition cat_print (e : env) (humane : bool) (b : block) (a : array) (m : mem) : out bytes :=
  if humane then text_rows e m (iter_init (e_me e) a) (Z.to_nat (b_nmemb b)) (Z.to_nat (hd 0 (a_dims a)))
  else or_ub OOB (load m (a_data a) (Z.to_nat (itemsize (e_me e) (b_dtype b) * a_size a))).

(* bigfile-cat.c:93-118: the loop; the exit code and what was printed. size is
   a ptrdiff_t, compared with chunksize as a size_t. *)
Fixpoint cat_loop (e : env) (humane : bool) (f : fs) (b : block) (chunk size stop offset : Z) (fuel : nat) : out (Z * bytes) :=
  match fuel with
  | O => Diverge
  | S k =>
      if negb (offset <? stop) then Ret (0, []) else
      let chunk := if u64 size <? chunk then u64 size else chunk in
      '(rc, r) <- big_block_read_simple e f b offset (s64 chunk) None ;;
      match (if rc =? 0 then r else None) with
      | None => Ret (1, [])
      | Some (a, m) =>
          t <- cat_print e humane b a m ;;
          '(rc, rest) <- cat_loop e humane f b chunk size stop (offset + hd 0 (a_dims a)) k ;;
          Ret (rc, t ++ rest)
      end
  end.

(* utils/bigfile-cat.c:30-122 main, after the options are read: the exit code,
   standard output, and the files. count is -1 if not given. Not modelled: the
   SIGUSR1 handler and the messages. *)
Definition bigfile_cat (e : env) (humane : bool) (f : fs) (path blk : bytes) (start count buffersize : Z) (fuel : nat) : out (Z * bytes * fs) :=
  match big_file_open f path with
  | None => Ret (1, [], f)
  | Some bf =>
  ob <- big_file_open_block e f bf blk ;;
  match ob with
  | None => Ret (1, [], f)
  | Some b =>
  if negb (count =? -1) && ((2 ^ 63 <=? count + start) || (count + start <? - 2 ^ 63)) then Undef IntOverflow else
  let size := if (count =? -1) || (b_size b <? u64 (count + start)) then s64 (b_size b - start) else count in
  let stop := start + size in
  if (2 ^ 63 <=? stop) || (stop <? - 2 ^ 63) then Undef IntOverflow else
  let w := b_nmemb b * itemsize (e_me e) (b_dtype b) in
  if u64 w =? 0 then Undef DivZero else
  '(rc, t) <- cat_loop e humane f b (buffersize / u64 w) size stop start fuel ;;
  if negb (rc =? 0) then Ret (rc, t, f) else
  '(_, f) <- big_block_close e f b ;;
  Ret (0, t, f)
  end end.

(* ------------------------------------------------------------------ *)
(* bigfile.c:1720-1752 attrset_set_attr when the argument dtype is the dtype
   field of entry i of the list, that of the attribute name itself. The removal
   (1705) moves the next entry there, so its type is read from then on. If
   there is no next entry, attrset_append_attr hands out the same entry again,
   cleared, and _dtype_normalize (1007) copies that string onto itself with
   strncpy, which is undefined. *)
Definition set_attr_own (ra : Z -> Z -> Z) (me : endian) (s : attrset) (name : bytes) (i : nat)
    (um : mem) (data : Z) (nmemb : Z) : out (Z * attrset * mem) :=
  let s := set_dirty s true in
  if has_blank name then Ret (-1, s, um) else
  '(_, s1) <- attrset_remove_attr s name ;;
  match nth_error (as_list s1) i with
  | None => Undef Overlap
  | Some x =>
      s2 <- attrset_add_attr ra me s1 name (at_dtype x) nmemb ;;
      r2 <- attrset_lookup_attr s2 name ;;
      a <- or_ub NullDeref r2 ;;
      if negb (at_nmemb a =? nmemb) then Ret (-1, s2, um) else
      y <- or_ub OOB (nth_error (as_list s2) i) ;;
      '(rc, dm, um') <- dtype_convert_simple me (as_mem s2) (at_data a) (at_dtype a)
                          um data (at_dtype y) (at_nmemb a) ;;
      Ret (rc, set_mem s2 dm, um')
  end.

(* utils/bigfile-set-attr.c:86-92: the numbers on the command line *)
Fixpoint parse_args (sc : fscan) (me : endian) (dt : bytes) (m : mem) (data : Z) (args : list bytes) : out (option mem) :=
  match args with
  | [] => Ret (Some m)
  | x :: r =>
      '(rc, m) <- dtype_parse sc me x dt m data ;;
      if negb (rc =? 0) then Ret None else parse_args sc me dt m (data + itemsize me dt) r
  end.

(* utils/bigfile-set-attr.c:17-100 main, after the options are read: the exit
   code and the files. nmemb is 0 if not given; dtype is NULL if not given.
   Not modelled: the messages. The codes of remove, set and close are ignored.
   A negative size makes malloc fail and memset write through NULL. *)
Definition bigfile_set_attr (e : env) (sc : fscan) (f : fs) (path blk : bytes) (force : bool) (dtype : option bytes) (nmemb : Z)
    (name : bytes) (args : list bytes) : out (Z * fs) :=
  match args with
  | [] => Ret (1, f)
  | arg :: _ =>
  match big_file_open f path with
  | None => Ret (1, f)
  | Some bf =>
  ob <- big_file_open_block e f bf blk ;;
  match ob with
  | None => Ret (1, f)
  | Some b =>
  s <- (if force then '(_, s) <- attrset_remove_attr (b_attrset b) name ;; Ret s else Ret (b_attrset b)) ;;
  i <- lookup_index s name ;;
  oa <- attrset_lookup_attr s name ;;
  dt <- or_ub NullDeref (match dtype, oa with Some d, _ => Some d | None, Some a => Some (at_dtype a) | None, None => None end) ;;
  let nmemb := match oa with Some a => if nmemb =? 0 then at_nmemb a else nmemb | None => nmemb end in
  let bytes := itemsize (e_me e) dt * nmemb in
  if 2 ^ 31 <=? Z.abs bytes then Undef IntOverflow else
  if bytes <? 0 then Undef NullDeref else
  let m := malloc_mem 0 bytes in
  om <- (if Byte.eqb (dtype_kind (e_me e) dt) "S" then
           let n := if nmemb =? 0 then zlen arg + 1 else nmemb in
           if negb (n =? zlen arg + 1) then Ret None else
           m <- or_ub OOB (store m 0 (arg ++ [x00])) ;; Ret (Some (n, m))
         else
           let n := if nmemb =? 0 then zlen args else nmemb in
           if negb (n =? zlen args) then Ret None else
           om <- parse_args sc (e_me e) dt m 0 args ;;
           match om with None => Ret None | Some m => Ret (Some (n, m)) end) ;;
  match om with
  | None => Ret (1, f)
  | Some (n, m) =>
  '(_, s, _) <- (match dtype, i with
                 | None, Some i => set_attr_own (e_realloc e) (e_me e) s name i m 0 n
                 | _, _ => attrset_set_attr (e_realloc e) (e_me e) s name m 0 dt n
                 end) ;;
  '(_, f) <- big_block_close e f (set_attrs b s) ;;
  Ret (0, f)
  end end end end.
