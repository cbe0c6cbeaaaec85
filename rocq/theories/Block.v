(* Blocks: open, create, grow, flush, close, seek, read, write. *)
From Coq.Strings Require Import Byte String.
From Coq Require Import List ZArith Bool.
From Verif Require Import Base Dtype Cast Array FS Fmt Attr.
Import ListNotations.
Open Scope Z_scope.
Local Open Scope out_scope.

(* Everything outside the library's control, plus the global buffer size. *)
Record env : Type := mkEnv {
  e_me : endian;                   (* machine byte order *)
  e_chunk : Z;                     (* CHUNK_BYTES, bigfile.c:35, settable *)
  e_junk : Z -> byte;              (* initial contents of the malloc'ed chunk buffer *)
  e_malloc : Z;                    (* address of a new attribute buffer *)
  e_realloc : Z -> Z -> Z;         (* address of a moved attribute buffer *)
  e_fg : Z -> bytes                (* "%g" *)
}.

(* bigfile.h:24-40 BigBlock. The arrays have Nfile+1 entries; an empty list
   stands for the NULL pointer of a meta block. *)
Record block : Type := mkBlock {
  b_dtype : bytes;
  b_nmemb : Z;
  b_base : bytes;
  b_size : Z;
  b_fsize : list Z;
  b_foffset : list Z;
  b_fchecksum : list Z;
  b_Nfile : Z;
  b_attrset : attrset;
  b_dirty : bool
}.

(* bigfile.h:44-49 BigBlockPtr *)
Record bptr : Type := mkPtr { p_fileid : Z; p_roffset : Z; p_aoffset : Z }.

Definition set_bdirty (b : block) (d : bool) : block :=
  mkBlock (b_dtype b) (b_nmemb b) (b_base b) (b_size b) (b_fsize b) (b_foffset b)
    (b_fchecksum b) (b_Nfile b) (b_attrset b) d.
Definition set_attrs (b : block) (s : attrset) : block :=
  mkBlock (b_dtype b) (b_nmemb b) (b_base b) (b_size b) (b_fsize b) (b_foffset b)
    (b_fchecksum b) (b_Nfile b) s (b_dirty b).
Definition set_checksums (b : block) (l : list Z) : block :=
  mkBlock (b_dtype b) (b_nmemb b) (b_base b) (b_size b) (b_fsize b) (b_foffset b)
    l (b_Nfile b) (b_attrset b) (b_dirty b).

(* ------------------------------------------------------------------ *)
(* Paths. *)

(* bigfile.c:128-142 _path_join *)
Definition path_join (p1 p2 : bytes) : bytes :=
  match rev p1 with
  | [] => p2
  | c :: _ => if Byte.eqb c "/" then p1 ++ p2 else p1 ++ ["/"%byte] ++ p2
  end.

(* bigfile.c:79-89 endswith: compares backwards until one string is used up,
   so a string shorter than the postfix can match too. *)
Fixpoint endswith_rev (rp rq : bytes) : bool :=
  match rp, rq with
  | x :: rp', y :: rq' => if Byte.eqb x y then endswith_rev rp' rq' else false
  | _, _ => true
  end.
Definition endswith (s postfix : bytes) : bool := endswith_rev (rev s) (rev postfix).

(* bigfile.c:333, 493: is this the attribute-only block of a file? *)
Definition is_meta (base : bytes) : bool :=
  endswith base (lit "/.") || bytes_eqb base (lit ".").

(* bigfile-internal.h:42-53 _strdup keeps at most 8192 characters. *)
Definition strdup (s : bytes) : bytes := firstn (Z.to_nat 8192) s.

(* bigfile.c:1907-1943 _big_file_open_a_file: the path of each file. *)
Definition header_path (base : bytes) : path := resolve (path_join base (lit "header")).
Definition attr1_path (base : bytes) : path := resolve (path_join base (lit "attr")).
Definition attr2_path (base : bytes) : path := resolve (path_join base (lit "attr-v2")).
Definition data_path (base : bytes) (fid : Z) : path :=
  resolve (path_join base (print_06X fid)).

(* ------------------------------------------------------------------ *)
(* Header text. *)

(* bigfile.c:603-605: the reduced (System V) checksum *)
Definition reduce_sum (s : Z) : Z :=
  let r := s mod 65536 + (s mod 2 ^ 32) / 65536 in
  r mod 65536 + r / 65536.

(* bigfile.c:602-609: lines i .. i+n-1 *)
Fixpoint header_lines (b : block) (i : Z) (n : nat) : out bytes :=
  match n with
  | O => Ret []
  | S n' =>
      sz <- or_ub OOB (znth (b_fsize b) i) ;;
      ck <- or_ub OOB (znth (b_fchecksum b) i) ;;
      r <- header_lines b (i + 1) n' ;;
      Ret (print_06X i ++ lit ": " ++ print_signed (s64 sz) ++ lit " : "
           ++ print_unsigned ck ++ lit " : " ++ print_unsigned (reduce_sum ck)
           ++ [x0a] ++ r)
  end.

(* bigfile.c:596-609 *)
Definition header_image (b : block) : out bytes :=
  r <- header_lines b 0 (Z.to_nat (b_Nfile b)) ;;
  Ret (lit "DTYPE: " ++ b_dtype b ++ [x0a]
       ++ lit "NMEMB: " ++ print_signed (b_nmemb b) ++ [x0a]
       ++ lit "NFILE: " ++ print_signed (b_Nfile b) ++ [x0a] ++ r).

(* running sums modulo 2^64, starting with acc (bigfile.c:377-380) *)
Fixpoint offsets (acc : Z) (l : list Z) : list Z :=
  acc :: match l with [] => [] | x :: r => offsets (u64 (acc + x)) r end.

(* bigfile.c:363-376: one line per physical file, in any order. *)
Fixpoint scan_files (Nfile : Z) (fsz fck : list Z) (s : bytes) (n : nat)
    : out (option (list Z * list Z)) :=
  match n with
  | O => Ret (Some (fsz, fck))
  | S n' =>
      match scan_06X s with
      | None => Ret None
      | Some (fid, s1) =>
      match scan_lit (lit ": ") s1 with
      | None => Ret None
      | Some s2 =>
      match scan_td s2 with
      | None => Ret None
      | Some (size, s3) =>
      match scan_lit (lit " : ") s3 with
      | None => Ret None
      | Some s4 =>
      match scan_u s4 with
      | None => Ret None
      | Some (ck, s5) =>
      match scan_lit (lit " : ") s5 with
      | None => Ret None
      | Some s6 =>
      match scan_u s6 with
      | None => Ret None
      | Some (_, s7) =>
          if (fid <? 0) || (Nfile <=? fid) then Ret None else
          fsz' <- or_ub OOB (zupd fsz fid size) ;;
          fck' <- or_ub OOB (zupd fck fid ck) ;;
          scan_files Nfile fsz' fck' s7 n'
      end end end end end end end
  end.

Record hdr : Type := mkHdr {
  h_dtype : bytes; h_nmemb : Z; h_Nfile : Z; h_fsize : list Z; h_fchecksum : list Z }.

(* bigfile.c:334-376: parsing the header file. None: return -1.
   The dtype is scanned into char[8] without a width limit. *)
Definition parse_header (c : bytes) : out (option hdr) :=
  match scan_lit (lit " DTYPE: ") c with
  | None => Ret None
  | Some s1 =>
  match scan_s s1 with
  | None => Ret None
  | Some (tok, s2) =>
      if (8 <=? length tok)%nat then Undef OOB else
  match scan_lit (lit " NMEMB: ") s2 with
  | None => Ret None
  | Some s3 =>
  match scan_d s3 with
  | None => Ret None
  | Some (nmemb, s4) =>
  match scan_lit (lit " NFILE: ") s4 with
  | None => Ret None
  | Some s5 =>
  match scan_d s5 with
  | None => Ret None
  | Some (nfile, s6) =>
      if (nfile <? 0) || (2 ^ 31 - 2 <=? nfile) then Ret None else
      if nmemb <? 0 then Ret None else
      let dtype := until_nul tok in
      if negb (dtype_isvalid dtype) then Ret None else
      let zeros := repeat 0 (S (Z.to_nat nfile)) in
      r <- scan_files nfile zeros zeros s6 (Z.to_nat nfile) ;;
      match r with
      | None => Ret None
      | Some (fsz, fck) => Ret (Some (mkHdr dtype nmemb nfile fsz fck))
      end
  end end end end end end.

Definition block_of_header (base : bytes) (s : attrset) (h : hdr) : block :=
  let fo := offsets 0 (firstn (Z.to_nat (h_Nfile h)) (h_fsize h)) in
  mkBlock (h_dtype h) (h_nmemb h) base (last fo 0) (h_fsize h) fo (h_fchecksum h)
    (h_Nfile h) s false.

(* bigfile.c:401-405: the meta block of a file *)
Definition meta_block (base : bytes) (s : attrset) : block :=
  mkBlock (lit "####") 0 base 0 [] [] [] 0 s false.

(* Contents of an attribute file opened with "r": missing, readable, or a
   directory. *)
Definition file_contents (f : fs) (p : path) : option bytes :=
  match fopen_r f p with
  | None => None
  | Some (Some c) => Some c
  | Some None => Some []
  end.

(* bigfile.c:314-409 _big_block_open. None: -1. A directory in the place of
   attr-v2 makes the reader fail. *)
Definition big_block_open (e : env) (f : fs) (basename : bytes) : out (option block) :=
  let base := strdup basename in
  let s := attrset_create (e_malloc e) in
  '(rc1, s1) <- attrset_read_v1 (e_realloc e) (e_me e) s (file_contents f (attr1_path base)) ;;
  if negb (rc1 =? 0) then Ret None else
  match fopen_r f (attr2_path base) with
  | Some None => Ret None
  | _ =>
  '(rc2, s2) <- attrset_read_v2 (e_realloc e) (e_me e) s1 (file_contents f (attr2_path base)) ;;
  if negb (rc2 =? 0) then Ret None else
  if is_meta base then Ret (Some (meta_block base s2)) else
  match fopen_r f (header_path base) with
  | None => Ret None
  | Some None => Ret None
  | Some (Some c) =>
      h <- parse_header c ;;
      match h with
      | None => Ret None
      | Some h => Ret (Some (block_of_header base s2 h))
      end
  end
  end.

(* bigfile.c:586-622 big_block_flush. Returns code, file system, block. *)
Definition big_block_flush (e : env) (f : fs) (b : block) : out (Z * fs * block) :=
  '(rc1, f1, b1) <-
    (if b_dirty b then
       match fopen_w f (header_path (b_base b)) with
       | None => Ret (-1, f, b)
       | Some f' =>
           img <- header_image b ;;
           Ret (0, fs_set f' (header_path (b_base b)) (File img), set_bdirty b false)
       end
     else Ret (0, f, b)) ;;
  if negb (rc1 =? 0) then Ret (rc1, f1, b1) else
  if as_dirty (b_attrset b1) then
    match fopen_w f1 (attr2_path (b_base b1)) with
    | None => Ret (-1, f1, set_attrs b1 (set_dirty (b_attrset b1) false))
    | Some f2 =>
        '(img, s') <- attr_lines (e_fg e) (e_me e) (b_attrset b1) (as_list (b_attrset b1)) ;;
        Ret (0, fs_set f2 (attr2_path (b_base b1)) (File img),
             set_attrs b1 (set_dirty s' false))
    end
  else Ret (0, f1, b1).

(* bigfile.c:636-650 big_block_close: flush; the handle is gone. *)
Definition big_block_close (e : env) (f : fs) (b : block) : out (Z * fs) :=
  '(rc, f', _) <- big_block_flush e f b ;; Ret (rc, f').

(* Truncate data files i .. i+n-1 (bigfile.c:458-465, 565-571). *)
Fixpoint truncate_files (f : fs) (base : bytes) (i : Z) (n : nat) : Z * fs :=
  match n with
  | O => (0, f)
  | S n' =>
      match fopen_w f (data_path base i) with
      | None => (-1, f)
      | Some f' => truncate_files f' base (i + 1) n'
      end
  end.

(* bigfile.c:472-553 _big_block_create_internal; dtype = None for NULL. A
   failure leaves a zeroed or freed handle: None. *)
Definition create_internal (e : env) (f : fs) (basename : bytes) (dtype : option bytes)
    (nmemb Nfile : Z) (fsize : list Z) : out (fs * option block) :=
  if has_blank basename then Ret (f, None) else
  let base := strdup basename in
  let s := set_dirty (attrset_create (e_malloc e)) true in
  if is_meta base then
    '(rc, f', b') <- big_block_flush e f
       (mkBlock [] 0 base 0 [] [] [] 0 s false) ;;
    if negb (rc =? 0) then Ret (f', None) else Ret (f', Some (set_bdirty b' false))
  else
    let '(dt, nf, fsz) :=
      match dtype with
      | None => (lit "i8", 0, [])
      | Some d => (d, Nfile, fsize)
      end in
    if nf <? -1 then Ret (f, None) else
    if (nf <? 0) || (zlen fsz <? nf) then Undef OOB else
    let fsz := firstn (Z.to_nat nf) fsz in
    let fo := offsets 0 fsz in
    '(rc, f', b') <- big_block_flush e f
       (mkBlock (dtype_normalize (e_me e) dt) nmemb base (last fo 0) (fsz ++ [0]) fo
          (repeat 0 (S (Z.to_nat nf))) nf s true) ;;
    if negb (rc =? 0) then Ret (f', None) else Ret (f', Some (set_bdirty b' false)).

(* bigfile.c:555-577 _big_block_create *)
Definition big_block_create (e : env) (f : fs) (basename : bytes) (dtype : option bytes)
    (nmemb Nfile : Z) (fsize : list Z) : out (fs * option block) :=
  '(f1, ob) <- create_internal e f basename dtype nmemb Nfile fsize ;;
  match ob with
  | None => Ret (f1, None)
  | Some b =>
      let '(rc, f2) := truncate_files f1 (b_base b) 0 (Z.to_nat (b_Nfile b)) in
      if negb (rc =? 0) then Ret (f2, None) else Ret (f2, Some b)
  end.

(* bigfile.c:411-447 _big_block_grow_internal *)
Definition grow_internal (b : block) (ngrow : Z) (fsize_grow : list Z) : out block :=
  let nf := ngrow + b_Nfile b in
  if (nf + 1 <? b_Nfile b) || (zlen fsize_grow <? ngrow) || (nf <? 0) then Undef OOB else
  let fsz := firstn (Z.to_nat nf)
    (firstn (Z.to_nat (b_Nfile b)) (b_fsize b) ++ firstn (Z.to_nat ngrow) fsize_grow) in
  let fck := firstn (Z.to_nat nf)
    (firstn (Z.to_nat (b_Nfile b)) (b_fchecksum b) ++ repeat 0 (Z.to_nat ngrow)) in
  let fo := offsets 0 fsz in
  Ret (mkBlock (b_dtype b) (b_nmemb b) (b_base b) (last fo 0) (fsz ++ [0]) fo (fck ++ [0])
         nf (b_attrset b) true).

(* bigfile.c:449-470 big_block_grow *)
Definition big_block_grow (f : fs) (b : block) (ngrow : Z) (fsize_grow : list Z)
    : out (Z * fs * block) :=
  b' <- grow_internal b ngrow fsize_grow ;;
  let '(rc, f') := truncate_files f (b_base b) (b_Nfile b)
                     (Z.to_nat (b_Nfile b' - b_Nfile b)) in
  Ret (rc, f', b').

(* ------------------------------------------------------------------ *)
(* Seeking. *)

(* bigfile.c:714-723: binary search; fuel bounds the iterations. *)
Fixpoint seek_search (fo : list Z) (offset : Z) (left right : Z) (fuel : nat) : out Z :=
  match fuel with
  | O => Diverge
  | S k =>
      if left + 1 <? right then
        let mid := (right - left) / 2 + left in
        o <- or_ub OOB (znth fo mid) ;;
        if o <=? u64 offset then seek_search fo offset mid right k
        else seek_search fo offset left mid k
      else Ret left
  end.

(* bigfile.c:694-731 big_block_seek *)
Definition big_block_seek (b : block) (p : bptr) (offset : Z) : out (Z * bptr) :=
  if (b_size b =? 0) && (offset =? 0) then Ret (0, mkPtr 0 0 0) else
  offset <- (if offset <? 0 then
               o <- or_ub OOB (znth (b_foffset b) (b_Nfile b)) ;; Ret (s64 (offset + o))
             else Ret offset) ;;
  if b_size b <? u64 offset then Ret (-1, p) else
  left <- seek_search (b_foffset b) offset 0 (b_Nfile b) (S (Z.to_nat (b_Nfile b))) ;;
  o <- or_ub OOB (znth (b_foffset b) left) ;;
  Ret (0, mkPtr left (s64 (offset - o)) offset).

(* bigfile.c:733-738 big_block_seek_rel *)
Definition big_block_seek_rel (b : block) (p : bptr) (rel : Z) : out (Z * bptr) :=
  o <- or_ub OOB (znth (b_foffset b) (p_fileid p)) ;;
  big_block_seek b p (s64 (o + p_roffset p + rel)).

(* bigfile.c:740-745 big_block_eof *)
Definition big_block_eof (b : block) (p : bptr) : out bool :=
  o <- or_ub OOB (znth (b_foffset b) (p_fileid p)) ;;
  Ret (b_size b <=? u64 (s64 (o + p_roffset p))).

(* ------------------------------------------------------------------ *)
(* Transfers. *)

Definition row_nmemb (b : block) : Z := if b_nmemb b =? 0 then 1 else b_nmemb b.

(* bigfile.c:802-803: bytes per row *)
Definition felsize (e : env) (b : block) : Z := itemsize (e_me e) (b_dtype b) * row_nmemb b.

(* bigfile.c:804: rows per buffer; felsize is converted to size_t *)
Definition chunk_rows (e : env) (b : block) : Z := e_chunk e / u64 (felsize e b).

Definition chunk_mem (e : env) : mem :=
  fun x => if (0 <=? x) && (x <? e_chunk e) then Some (e_junk e x) else None.

(* bigfile.c:832-840 (and 920-927): size of the next chunk *)
Definition next_chunk (b : block) (p : bptr) (cs todo : Z) : out Z :=
  fsz <- or_ub OOB (znth (b_fsize b) (p_fileid p)) ;;
  let c := cs in
  let rem := u64 (fsz - p_roffset p) in
  let c := if rem <? c then rem else c in
  let c := if todo <? c then todo else c in
  Ret c.

(* bigfile.c:1420-1428 sysvsum *)
Definition sysvsum (sum : Z) (l : bytes) : Z :=
  fold_left (fun s c => u32 (s + b2z c)) l sum.

(* bigfile.c:918-959: the write loop. cb: the chunk buffer; ca: the array
   laid over it; ai: iterator over the caller's array in um. *)
Fixpoint write_loop (e : env) (f : fs) (b : block) (p : bptr) (cb : mem) (ca : array)
    (um : mem) (ai : iter) (cs towrite : Z) (fuel : nat)
    : out (Z * fs * block * bptr * mem) :=
  match fuel with
  | O => Diverge
  | S k =>
      if negb (0 <? towrite) then Ret (0, f, b, p, um) else
      eof <- big_block_eof b p ;;
      if (eof : bool) then Ret (0, f, b, p, um) else
      c <- next_chunk b p cs towrite ;;
      '(rc, cb1, _, um1, ai1) <-
        dtype_convert (e_me e) cb (iter_init (e_me e) ca) um ai (Z.to_nat (c * b_nmemb b)) ;;
      if negb (rc =? 0) then Ret (-1, f, b, p, um1) else
      l <- or_ub OOB (load cb1 0 (Z.to_nat (c * felsize e b))) ;;
      old <- or_ub OOB (znth (b_fchecksum b) (p_fileid p)) ;;
      cks <- or_ub OOB (zupd (b_fchecksum b) (p_fileid p) (sysvsum old l)) ;;
      let b1 := set_checksums b cks in
      match fopen_rp f (data_path (b_base b) (p_fileid p)) with
      | None => Ret (-1, f, b1, p, um1)
      | Some cont =>
          if p_roffset p * felsize e b <? 0 then Ret (-1, f, b1, p, um1) else
          let f1 := fs_set f (data_path (b_base b) (p_fileid p))
                      (File (pwrite cont (Z.to_nat (p_roffset p * felsize e b)) l)) in
          '(rc2, p1) <- big_block_seek_rel b1 p c ;;
          if negb (rc2 =? 0) then Ret (-1, f1, b1, p1, um1)
          else write_loop e f1 b1 p1 cb1 ca um1 ai1 cs (towrite - c) k
      end
  end.

(* bigfile.c:890-975 big_block_write: code, files, block, pointer and the
   caller's memory. [fuel] bounds the number of chunks. *)
Definition big_block_write_fuel (e : env) (f : fs) (b : block) (p : bptr) (a : array) (um : mem)
    (fuel : nat) : out (Z * fs * block * bptr * mem) :=
  if a_size a =? 0 then Ret (0, f, b, p, um) else
  let b := set_bdirty b true in
  if 2 ^ 31 <=? Z.abs (felsize e b) then Undef IntOverflow else
  if felsize e b =? 0 then Undef DivZero else
  let cs := chunk_rows e b in
  ca <- big_array_init (e_me e) 0 (b_dtype b) [cs; b_nmemb b] None ;;
  let ai := iter_init (e_me e) a in
  let towrite := a_size a / row_nmemb b in
  o <- or_ub OOB (znth (b_foffset b) (p_fileid p)) ;;
  if b_size b <? u64 (s64 (o + p_roffset p + towrite)) then Ret (-1, f, b, p, um) else
  write_loop e f b p (chunk_mem e) ca um ai cs towrite fuel.

(* A chunk per row is enough whenever the loop makes progress. *)
Definition big_block_write (e : env) (f : fs) (b : block) (p : bptr) (a : array) (um : mem)
    : out (Z * fs * block * bptr * mem) :=
  big_block_write_fuel e f b p a um (S (Z.to_nat (a_size a / row_nmemb b))).

(* bigfile.c:829-875: the read loop. *)
Fixpoint read_loop (e : env) (f : fs) (b : block) (p : bptr) (cb : mem) (ca : array)
    (um : mem) (ai : iter) (cs toread : Z) (fuel : nat) : out (Z * bptr * mem) :=
  match fuel with
  | O => Diverge
  | S k =>
      if negb (0 <? toread) then Ret (0, p, um) else
      eof <- big_block_eof b p ;;
      if (eof : bool) then Ret (0, p, um) else
      c <- next_chunk b p cs toread ;;
      if c =? 0 then Ret (-1, p, um) else
      match fopen_r f (data_path (b_base b) (p_fileid p)) with
      | None => Ret (-1, p, um)
      | Some oc =>
          if p_roffset p * felsize e b <? 0 then Ret (-1, p, um) else
          let l := match oc with
                   | Some cont => pread cont (Z.to_nat (p_roffset p * felsize e b))
                                    (Z.to_nat (c * felsize e b))
                   | None => []
                   end in
          cb1 <- or_ub OOB (store cb 0 l) ;;
          if negb (length l =? Z.to_nat (c * felsize e b))%nat then Ret (-1, p, um) else
          '(rc, um1, ai1, cb2, _) <-
            dtype_convert (e_me e) um ai cb1 (iter_init (e_me e) ca) (Z.to_nat (c * b_nmemb b)) ;;
          if negb (rc =? 0) then Ret (-1, p, um1) else
          '(rc2, p1) <- big_block_seek_rel b p c ;;
          if negb (rc2 =? 0) then Ret (-1, p1, um1)
          else read_loop e f b p1 cb2 ca um1 ai1 cs (toread - c) k
      end
  end.

(* bigfile.c:797-888 big_block_read: code, pointer, caller's memory. *)
Definition big_block_read (e : env) (f : fs) (b : block) (p : bptr) (a : array) (um : mem)
    : out (Z * bptr * mem) :=
  if 2 ^ 31 <=? Z.abs (felsize e b) then Undef IntOverflow else
  if felsize e b =? 0 then Undef DivZero else
  let cs := chunk_rows e b in
  ca <- big_array_init (e_me e) 0 (b_dtype b) [cs; b_nmemb b] None ;;
  let ai := iter_init (e_me e) a in
  let toread := a_size a / row_nmemb b in
  o <- or_ub OOB (znth (b_foffset b) (p_fileid p)) ;;
  if b_size b <? u64 (s64 (o + p_roffset p + toread)) then Ret (-1, p, um) else
  read_loop e f b p (chunk_mem e) ca um ai cs toread (S (Z.to_nat toread)).

(* bigfile.c:757-795 big_block_read_simple: allocates the result (an object
   at address 0 of the right size) and returns code, array and memory. *)
Definition big_block_read_simple (e : env) (f : fs) (b : block) (start size : Z)
    (dtype : option bytes) : out (Z * option (array * mem)) :=
  let dt := match dtype with Some d => d | None => b_dtype b end in
  '(rc, p) <- big_block_seek b (mkPtr 0 0 0) start ;;
  if negb (rc =? 0) then Ret (-1, None) else
  let size := if b_size b <? u64 (s64 (start + size))
              then s64 (b_size b - start) else size in
  if size <? 0 then Ret (-1, None) else
  let n := size * itemsize (e_me e) dt * b_nmemb b in
  let um := malloc_mem 0 n in
  a <- big_array_init (e_me e) 0 dt [size; b_nmemb b] None ;;
  '(rc2, _, um') <- big_block_read e f b p a um ;;
  if negb (rc2 =? 0) then Ret (-1, None) else Ret (0, Some (a, um')).
