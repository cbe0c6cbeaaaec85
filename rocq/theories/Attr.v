(* Attribute sets: the in-memory structure (buffer, list, realloc) and the
   two file formats. *)
From Coq.Strings Require Import Byte String.
From Coq Require Import List ZArith Bool.
From Verif Require Import Base Dtype Cast Array FS Fmt.
Import ListNotations.
Open Scope Z_scope.
Local Open Scope out_scope.

(* bigfile.h:14-20 BigAttr; name and data are addresses inside the buffer. *)
Record attr : Type := mkAttr {
  at_nmemb : Z;
  at_dtype : bytes;
  at_name : Z;
  at_data : Z
}.

(* bigfile.c:38-49 struct BigAttrSet. The buffer is one memory object at
   address as_base of as_bufsize bytes; listused is the length of as_list. *)
Record attrset : Type := mkAS {
  as_dirty : bool;
  as_mem : mem;
  as_base : Z;
  as_bufused : Z;
  as_bufsize : Z;
  as_list : list attr;
  as_listsize : Z
}.

Definition set_dirty (s : attrset) (d : bool) : attrset :=
  mkAS d (as_mem s) (as_base s) (as_bufused s) (as_bufsize s) (as_list s) (as_listsize s).
Definition set_mem (s : attrset) (m : mem) : attrset :=
  mkAS (as_dirty s) m (as_base s) (as_bufused s) (as_bufsize s) (as_list s) (as_listsize s).
Definition set_list (s : attrset) (l : list attr) : attrset :=
  mkAS (as_dirty s) (as_mem s) (as_base s) (as_bufused s) (as_bufsize s) l (as_listsize s).

(* A malloc'ed object; its indeterminate contents are shown as zeros. *)
Definition malloc_mem (base size : Z) : mem :=
  fun x => if (base <=? x) && (x <? base + size) then Some x00 else None.

(* realloc: the old contents move to the new address. *)
Definition realloc_mem (m : mem) (base size nbase nsize : Z) : mem :=
  fun x => if (nbase <=? x) && (x <? nbase + nsize)
           then (if x - nbase <? size then m (x - nbase + base) else Some x00)
           else None.

(* bigfile.c:1768-1780 attrset_create; base is the address malloc returns. *)
Definition attrset_create (base : Z) : attrset :=
  mkAS false (malloc_mem base 128) base 0 128 [] 16.

(* Reading a C string from memory. *)
Fixpoint cstr (m : mem) (a : Z) (fuel : nat) : out bytes :=
  match fuel with
  | O => Undef OOB
  | S k =>
      match m a with
      | None => Undef OOB
      | Some b => if Byte.eqb b x00 then Ret []
                  else r <- cstr m (a + 1) k ;; Ret (b :: r)
      end
  end.
Definition attr_name (s : attrset) (a : attr) : out bytes :=
  cstr (as_mem s) (at_name a) (S (Z.to_nat (as_bufsize s))).

(* strcmp: sign of the first difference of unsigned chars. *)
Fixpoint strcmp (a b : bytes) : comparison :=
  match a, b with
  | [], [] => Eq
  | [], _ => Lt
  | _, [] => Gt
  | x :: a', y :: b' =>
      match b2z x ?= b2z y with
      | Eq => strcmp a' b'
      | c => c
      end
  end.

(* Insertion into a list sorted by name (qsort with attr_cmp,
   bigfile.c:1632-1636; the order of equal names is unspecified). *)
Fixpoint insert_sorted (s : attrset) (x : attr) (l : list attr) : out (list attr) :=
  match l with
  | [] => Ret [x]
  | y :: r =>
      nx <- attr_name s x ;;
      ny <- attr_name s y ;;
      match strcmp nx ny with
      | Gt => r' <- insert_sorted s x r ;; Ret (y :: r')
      | _ => Ret (x :: y :: r)
      end
  end.
Fixpoint qsort_attr (s : attrset) (l : list attr) : out (list attr) :=
  match l with
  | [] => Ret []
  | x :: r => r' <- qsort_attr s r ;; insert_sorted s x r'
  end.

(* bsearch (glibc): binary search between lo and hi. *)
Fixpoint bsearch (s : attrset) (key : bytes) (lo hi : nat) (fuel : nat) : out (option nat) :=
  match fuel with
  | O => Diverge
  | S k =>
      if (lo <? hi)%nat then
        let mid := ((lo + hi) / 2)%nat in
        a <- or_ub OOB (nth_error (as_list s) mid) ;;
        n <- attr_name s a ;;
        match strcmp key n with
        | Lt => bsearch s key lo mid k
        | Gt => bsearch s key (S mid) hi k
        | Eq => Ret (Some mid)
        end
      else Ret None
  end.

(* bigfile.c:1685-1692 attrset_lookup_attr: index into the list. *)
Definition lookup_index (s : attrset) (name : bytes) : out (option nat) :=
  bsearch s name 0 (length (as_list s)) (S (length (as_list s))).
Definition attrset_lookup_attr (s : attrset) (name : bytes) : out (option attr) :=
  r <- lookup_index s name ;;
  match r with
  | None => Ret None
  | Some i => a <- or_ub OOB (nth_error (as_list s) i) ;; Ret (Some a)
  end.

(* bigfile.c:1694-1711 attrset_remove_attr. Does not touch the dirty flag. *)
Definition attrset_remove_attr (s : attrset) (name : bytes) : out (Z * attrset) :=
  r <- lookup_index s name ;;
  match r with
  | None => Ret (-1, s)
  | Some i => Ret (0, set_list s (firstn i (as_list s) ++ skipn (S i) (as_list s)))
  end.

(* bigfile.c:1638-1648 attrset_append_attr: room for one more list entry. *)
Fixpoint grow_list (listsize listused : Z) (fuel : nat) : out Z :=
  match fuel with
  | O => Diverge
  | S k => if u64 (listsize - listused) <? 1 then grow_list (listsize * 2) listused k
           else Ret listsize
  end.
Definition attrset_append_attr (s : attrset) (a : attr) : out attrset :=
  ls <- grow_list (as_listsize s) (zlen (as_list s)) 64 ;;
  if (zlen (as_list s) <? ls) then
    Ret (mkAS (as_dirty s) (as_mem s) (as_base s) (as_bufused s) (as_bufsize s)
           (as_list s ++ [a]) ls)
  else Undef OOB.

Definition shift_attr (d : Z) (a : attr) : attr :=
  mkAttr (at_nmemb a) (at_dtype a) (at_name a + d) (at_data a + d).

Section Alloc.
  (* The address realloc returns for the buffer, given the old address and
     the new size: an arbitrary function. *)
  Variable ra : Z -> Z -> Z.

  (* bigfile.c:1654-1667: double the buffer until size bytes are free,
     rebasing every name and data pointer. *)
  Fixpoint grow_buf (s : attrset) (size : Z) (fuel : nat) : out attrset :=
    match fuel with
    | O => Diverge
    | S k =>
        if u64 (as_bufsize s - as_bufused s) <? size then
          let l1 := map (shift_attr (- as_base s)) (as_list s) in
          let nsize := as_bufsize s * 2 in
          let nbase := ra (as_base s) nsize in
          let m' := realloc_mem (as_mem s) (as_base s) (as_bufsize s) nbase nsize in
          let l2 := map (shift_attr nbase) l1 in
          grow_buf (mkAS (as_dirty s) m' nbase (as_bufused s) nsize l2 (as_listsize s)) size k
        else Ret s
    end.

  (* bigfile.c:1650-1683 attrset_add_attr *)
  Definition attrset_add_attr (me : endian) (s : attrset) (name dtype : bytes) (nmemb : Z)
    : out attrset :=
    let prod := itemsize me dtype * nmemb in
    if (2 ^ 31 <=? prod) || (prod <? - 2 ^ 31) then Undef IntOverflow else
    let size := u64 (prod + zlen name + 1) in
    s1 <- grow_buf s size 64 ;;
    let free := as_base s1 + as_bufused s1 in
    let s2 := mkAS (as_dirty s1) (as_mem s1) (as_base s1) (as_bufused s1 + size)
                (as_bufsize s1) (as_list s1) (as_listsize s1) in
    let n := mkAttr nmemb (dtype_normalize me dtype) free (free + zlen name + 1) in
    s3 <- attrset_append_attr s2 n ;;
    m' <- or_ub OOB (store (as_mem s3) free (name ++ [x00])) ;;
    let s4 := set_mem s3 m' in
    l <- qsort_attr s4 (as_list s4) ;;
    Ret (set_list s4 l).

  Definition has_blank (s : bytes) : bool :=
    existsb (fun c => Byte.eqb c " " || Byte.eqb c x09 || Byte.eqb c x0a) s.

  (* bigfile.c:1720-1752 attrset_set_attr. The value is nmemb elements of
     type dtype at address data in um. Returns the code, the set and the
     caller's memory. *)
  Definition attrset_set_attr (me : endian) (s : attrset) (name : bytes)
      (um : mem) (data : Z) (dtype : bytes) (nmemb : Z) : out (Z * attrset * mem) :=
    let s := set_dirty s true in
    if has_blank name then Ret (-1, s, um) else
    r <- attrset_lookup_attr s name ;;
    s1 <- (match r with
           | Some _ => '(_, s1) <- attrset_remove_attr s name ;; Ret s1
           | None => Ret s
           end) ;;
    s2 <- attrset_add_attr me s1 name dtype nmemb ;;
    r2 <- attrset_lookup_attr s2 name ;;
    a <- or_ub NullDeref r2 ;;
    if negb (at_nmemb a =? nmemb) then Ret (-1, s2, um) else
    '(rc, dm, um') <- dtype_convert_simple me (as_mem s2) (at_data a) (at_dtype a)
                        um data dtype (at_nmemb a) ;;
    Ret (rc, set_mem s2 dm, um').
End Alloc.

(* bigfile.c:1754-1765 attrset_get_attr: into the caller's memory. *)
Definition attrset_get_attr (me : endian) (s : attrset) (name : bytes)
    (um : mem) (data : Z) (dtype : bytes) (nmemb : Z) : out (Z * attrset * mem) :=
  r <- attrset_lookup_attr s name ;;
  match r with
  | None => Ret (-1, s, um)
  | Some a =>
      if negb (at_nmemb a =? nmemb) then Ret (-1, s, um) else
      '(rc, um', sm) <- dtype_convert_simple me um data dtype
                          (as_mem s) (at_data a) (at_dtype a) (at_nmemb a) ;;
      Ret (rc, set_mem s sm, um')
  end.

(* ------------------------------------------------------------------ *)
(* Legacy binary format, bigfile.c:1434-1479 attrset_read_attr_set_v1.    *)

Definition until_nul (l : bytes) : bytes :=
  (fix go (l : bytes) : bytes :=
     match l with
     | [] => []
     | c :: r => if Byte.eqb c x00 then [] else c :: go r
     end) l.

Definition take (n : nat) (l : bytes) : option (bytes * bytes) :=
  if (n <=? length l)%nat then Some (firstn n l, skipn n l) else None.

(* native int *)
Definition native_int (me : endian) (l : bytes) : Z := s32 (nat_val me l).

Fixpoint read_v1_loop (ra : Z -> Z -> Z) (me : endian) (s : attrset) (c : bytes) (fuel : nat)
    : out (Z * attrset) :=
  match fuel with
  | O => Diverge
  | S k =>
      match take 4 c with
      | None => Ret (0, s)
      | Some (w1, c1) =>
          let nmemb := native_int me w1 in
          match take 4 c1 with
          | None => Ret (-1, s)
          | Some (w2, c2) =>
              let lname := native_int me w2 in
              match take 8 c2 with
              | None => Ret (-1, s)
              | Some (d8, c3) =>
                  let dtype := until_nul d8 in
                  if negb (dtype_isvalid dtype) then Ret (-1, s) else
                  let ldata := itemsize me dtype * nmemb in
                  if (ldata <? 0) || (lname <? 0) || (2 ^ 31 <=? ldata) then Undef OOB else
                  (* fread of a zero sized item returns 0 *)
                  if (lname =? 0) then Ret (-1, s) else
                  match take (Z.to_nat lname) c3 with
                  | None => Ret (-1, s)
                  | Some (nm, c4) =>
                      if (ldata =? 0) then Ret (-1, s) else
                      match take (Z.to_nat ldata) c4 with
                      | None => Ret (-1, s)
                      | Some (dat, c5) =>
                          '(rc, s', _) <- attrset_set_attr ra me s (until_nul nm)
                                            (mem_of 0 dat) 0 dtype nmemb ;;
                          if negb (rc =? 0) then Ret (-1, s')
                          else read_v1_loop ra me s' c5 k
                      end
                  end
              end
          end
      end
  end.

(* The whole reader on the contents of the file "attr" (None: no such file). *)
Definition attrset_read_v1 (ra : Z -> Z -> Z) (me : endian) (s : attrset) (file : option bytes)
    : out (Z * attrset) :=
  let s := set_dirty s false in
  match file with
  | None => Ret (0, s)
  | Some c =>
      '(rc, s') <- read_v1_loop ra me s c (S (length c)) ;;
      Ret (rc, set_dirty s' false)
  end.

(* ------------------------------------------------------------------ *)
(* Text format, reader: bigfile.c:1481-1559.                              *)

Definition isblank (c : byte) : bool := Byte.eqb c " " || Byte.eqb c x09.

Fixpoint skip_blank (l : bytes) : bytes :=
  match l with
  | c :: r => if isblank c then skip_blank r else l
  | [] => []
  end.

(* ATTRV2_EXPECT (bigfile.c:1511-1513): the buffer, of size+1 bytes with a NUL
   at the end, is the list l; running off its end is out of bounds. *)
Fixpoint take_token (l : bytes) : out (bytes * bytes) :=
  match l with
  | [] => Undef OOB
  | c :: r => if isblank c then Ret ([], r)
              else '(t, r') <- take_token r ;; Ret (c :: t, r')
  end.
Definition expect (l : bytes) : out (bytes * bytes) :=
  match skip_blank l with
  | [] => Undef OOB
  | l' => '(t, r) <- take_token l' ;; Ret (until_nul t, r)
  end.

(* skip the rest of the line *)
Fixpoint skip_line (l : bytes) : out bytes :=
  match l with
  | [] => Undef OOB
  | c :: r => if Byte.eqb c x0a then Ret r
              else if Byte.eqb c x00 then Ret l
              else skip_line r
  end.

Definition atoi_int (l : bytes) : Z := s32 (sat_long (atoi l)).

(* strtoll(buf, NULL, 16) of a string of at most two characters *)
Definition strtol16 (l : bytes) : Z :=
  let l := drop_space l in
  let '(neg, l) := match l with
                   | c :: r => if Byte.eqb c "-" then (true, r)
                               else if Byte.eqb c "+" then (false, r) else (false, l)
                   | [] => (false, l)
                   end in
  let l := match l with
           | c :: x :: (y :: _) as r =>
               if Byte.eqb c "0" && (Byte.eqb x "x" || Byte.eqb x "X")
               then match xval y with Some _ => tl (tl l) | None => l end else l
           | _ => l
           end in
  let '(v, _, _) := scan_digits 16 0 0 (length l) l in
  if neg then - v else v.

Fixpoint hex_bytes (l : bytes) : bytes :=
  match l with
  | a :: b :: r => z2b (strtol16 (until_nul [a; b])) :: hex_bytes r
  | _ => []
  end.

Fixpoint read_v2_loop (ra : Z -> Z -> Z) (me : endian) (s : attrset) (l : bytes) (fuel : nat)
    : out (Z * attrset) :=
  match fuel with
  | O => Diverge
  | S k =>
      match l with
      | [] => Undef OOB
      | c :: _ =>
          if Byte.eqb c x00 then Ret (0, s) else
          '(name, l1) <- expect l ;;
          '(dtype, l2) <- expect l1 ;;
          '(rawlength, l3) <- expect l2 ;;
          '(rawdata, l4) <- expect l3 ;;
          l5 <- skip_line l4 ;;
          let nmemb := atoi_int rawlength in
          let isz := itemsize me dtype in
          let n := nmemb * isz in
          if (2 ^ 31 <=? n * 2) || (n * 2 <? - 2 ^ 31) then Undef IntOverflow else
          if negb (u64 (n * 2) =? zlen rawdata) then Ret (-1, s) else
          let data := hex_bytes rawdata in
          '(rc, s', _) <- attrset_set_attr ra me s name (mem_of 0 data) 0 dtype nmemb ;;
          if negb (rc =? 0) then Ret (-1, s')
          else read_v2_loop ra me s' l5 k
      end
  end.

Definition attrset_read_v2 (ra : Z -> Z -> Z) (me : endian) (s : attrset) (file : option bytes)
    : out (Z * attrset) :=
  let s := set_dirty s false in
  match file with
  | None => Ret (0, s)
  | Some c =>
      '(rc, s') <- read_v2_loop ra me s (c ++ [x00]) (S (length c)) ;;
      Ret (rc, set_dirty s' false)
  end.

(* ------------------------------------------------------------------ *)
(* Text format, writer: bigfile.c:1560-1630.                              *)

Fixpoint hex_print (l : bytes) : bytes :=
  match l with
  | [] => []
  | b :: r => xdigit (b2z b / 16) :: xdigit (b2z b mod 16) :: hex_print r
  end.

Section Textual.
  (* "%g" of a binary64 datum given by its bits: left abstract. *)
  Variable fg : Z -> bytes.

  (* bigfile.c:1180-1205: the text of one native element of type suffix suf
     (FORMAT1/FORMAT2); f4 promotes to double. *)
  Definition format_native (me : endian) (ndtype : bytes) (l : bytes) : out bytes :=
    let suf := suffix ndtype in
    let v := nat_val me l in
    let g4 := fun b => match scalar_bits F8 F4 b with Ret z => z | _ => 0 end in
    if bytes_eqb suf (lit "a1") then Ret (firstn 1 l)
    else if bytes_eqb suf (lit "b1") then Ret (print_signed (int_of_bits true 1 v))
    else if bytes_eqb suf (lit "i8") then Ret (print_signed (int_of_bits true 8 v))
    else if bytes_eqb suf (lit "i4") then Ret (print_signed (int_of_bits true 4 v))
    else if bytes_eqb suf (lit "u8") then Ret (print_unsigned v)
    else if bytes_eqb suf (lit "u4") then Ret (print_unsigned v)
    else if bytes_eqb suf (lit "f8") then Ret (fg v)
    else if bytes_eqb suf (lit "f4") then Ret (fg (g4 v))
    else if bytes_eqb suf (lit "c8") then
      Ret (fg (g4 (nat_val me (firstn 4 l))) ++ lit "+" ++ fg (g4 (nat_val me (skipn 4 l))) ++ lit "I")
    else if bytes_eqb suf (lit "c16") then
      Ret (fg (nat_val me (firstn 8 l)) ++ lit "+" ++ fg (nat_val me (skipn 8 l)) ++ lit "I")
    else Ret (lit "<" ++ ndtype ++ lit ">").

  Definition native_of (me : endian) (dtype : bytes) : bytes :=
    match dtype_normalize me dtype with
    | _ :: r => machine_char me :: r
    | [] => []
    end.

  (* bigfile.c:1166-1206 big_file_dtype_format: converts one element into a
     128-byte local (swapping a foreign source in place) and prints it. *)
  Definition dtype_format (me : endian) (m : mem) (data : Z) (dtype : bytes) : out (bytes * mem) :=
    let nd := native_of me dtype in
    '(_, cm, m') <- dtype_convert_simple me (malloc_mem 0 128) 0 nd m data dtype 1 ;;
    l <- or_ub OOB (load cm 0 (Z.to_nat (Z.min 128 (Z.max 0 (itemsize me nd))))) ;;
    t <- format_native me nd l ;;
    Ret (t, m').

  (* bigfile.c:1590-1613: the textual form of elements j .. j+n-1. *)
  Fixpoint textual_loop (me : endian) (m : mem) (a : attr) (isz : Z) (j : Z) (n : nat)
      : out (bytes * mem) :=
    match n with
    | O => Ret ([], m)
    | S n' =>
        let kind := nth 1 (at_dtype a) x00 in
        if negb (Byte.eqb kind "a") && negb (Byte.eqb kind "S" && (isz =? 1)) then
          '(t, m1) <- dtype_format me m (at_data a + j * isz) (at_dtype a) ;;
          '(r, m2) <- textual_loop me m1 a isz (j + 1) n' ;;
          Ret (t ++ (if j =? at_nmemb a - 1 then [] else lit " ") ++ r, m2)
        else
          b <- or_ub OOB (m (at_data a + j)) ;;
          if Byte.eqb b x0a then Ret (lit "...", m)
          else if Byte.eqb b x00 then Ret ([], m)
          else '(r, m') <- textual_loop me m a isz (j + 1) n' ;; Ret (b :: r, m')
    end.

  (* One line: "%s %s %d %s #HUMANE [ %s ]\n" *)
  Definition attr_line (me : endian) (s : attrset) (a : attr) : out (bytes * attrset) :=
    let isz := itemsize me (at_dtype a) in
    let ldata := isz * at_nmemb a in
    if (2 ^ 30 <=? ldata) || (ldata <? 0) then Undef IntOverflow else
    name <- attr_name s a ;;
    raw <- or_ub OOB (load (as_mem s) (at_data a) (Z.to_nat ldata)) ;;
    '(textual, m') <-
      (if 128 <? ldata then Ret (lit "... (Too Long) ", as_mem s)
       else textual_loop me (as_mem s) a isz 0 (Z.to_nat (at_nmemb a))) ;;
    Ret (name ++ lit " " ++ at_dtype a ++ lit " " ++ print_signed (at_nmemb a) ++ lit " "
         ++ hex_print raw ++ lit " #HUMANE [ " ++ textual ++ lit " ]" ++ [x0a],
         set_mem s m').

  Fixpoint attr_lines (me : endian) (s : attrset) (l : list attr) : out (bytes * attrset) :=
    match l with
    | [] => Ret ([], s)
    | a :: r =>
        '(t, s1) <- attr_line me s a ;;
        '(u, s2) <- attr_lines me s1 r ;;
        Ret (t ++ u, s2)
    end.
End Textual.
