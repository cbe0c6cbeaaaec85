(* The command line utilities bigfile-create and bigfile-copy. *)
From Coq.Strings Require Import Byte String.
From Coq Require Import List ZArith Lia Bool.
From Verif Require Import Base Dtype Cast Array FS Fmt Attr Block File.
Import ListNotations.
Open Scope Z_scope.
Local Open Scope out_scope.

(* fread(buffer, w, n, stdin) with the given input left: the bytes stored and
   the end-of-file flag, which is set when the input runs out before w * n
   bytes. A request for no bytes reads nothing and sets no flag. *)
Definition fread (input : bytes) (w n : Z) : bytes * bytes * bool :=
  let k := Z.to_nat (w * n) in
  (firstn k input, skipn k input, (length input <? k)%nat).
(* bytes stored at address 0 *)
Definition put_bytes (um : mem) (l : bytes) : mem :=
  fun x => if (0 <=? x) && (x <? zlen l) then nth_error l (Z.to_nat x) else um x.

(* utils/bigfile-create.c:71-80: the loop. The buffer of buffersize bytes is at
   address 0 of um; w is the row size in bytes. The codes returned by seek and
   write are ignored by the program. fuel bounds the iterations. *)
Fixpoint create_loop (e : env) (f : fs) (b : block) (um : mem) (buffersize w chunk : Z)
    (input : bytes) (eof : bool) (p : bptr) (offset : Z) (fuel : nat) : out (fs * block * Z) :=
  match fuel with
  | O => Diverge
  | S k =>
      if eof then Ret (f, b, offset) else
      let '(got, rest, eof) := fread input w chunk in
      if buffersize <? zlen got then Undef OOB else
      let um := put_bytes um got in
      let nread := zlen got / w in
      a <- big_array_init (e_me e) 0 (b_dtype b) [nread; b_nmemb b] None ;;
      '(_, p) <- big_block_seek b p offset ;;
      '(_, f, b, p, um) <- big_block_write e f b p a um ;;
      create_loop e f b um buffersize w chunk rest eof p (offset + nread) k
  end.

(* bb.size = offset; bb.fsize[0] = offset (bigfile-create.c:81-82) *)
Definition set_rows (b : block) (n : Z) : block :=
  mkBlock (b_dtype b) (b_nmemb b) (b_base b) n (upd (b_fsize b) 0 n) (b_foffset b)
    (b_fchecksum b) (b_Nfile b) (b_attrset b) (b_dirty b).

(* utils/bigfile-create.c:25-83 main, after the options are read: the exit
   code and the files. input: standard input; junk: what malloc left in the
   buffer. Not modelled: the SIGUSR1 handler and the text of the error
   messages. The size of the only file is (size_t) -1 at first (57). *)
Definition bigfile_create (e : env) (f : fs) (path blk dtype : bytes) (nmemb buffersize : Z)
    (junk : mem) (input : bytes) (fuel : nat) : out (Z * fs) :=
  let '(f, ob) := big_file_create f path in
  match ob with
  | None => Ret (1, f)
  | Some bf =>
      '(f, ob) <- big_file_create_block e f bf blk (Some dtype) nmemb 1 [2 ^ 64 - 1] ;;
      match ob with
      | None => Ret (1, f)
      | Some b =>
          let w := b_nmemb b * itemsize (e_me e) (b_dtype b) in
          if u64 w =? 0 then Undef DivZero else
          '(f, b, offset) <- create_loop e f b junk buffersize w (buffersize / u64 w) input false (mkPtr 0 0 0) 0 fuel ;;
          '(_, f) <- big_block_close e f (set_rows b offset) ;;
          Ret (0, f)
      end
  end.

(* utils/bigfile-copy.c:65-71: rows of the new files. size_t arithmetic. *)
Definition copy_sizes (size Nfile : Z) : list Z :=
  map (fun i => u64 (u64 ((Z.of_nat i + 1) * size) / Nfile - u64 (Z.of_nat i * size) / Nfile))
      (seq 0 (Z.to_nat Nfile)).

(* bigfile-copy.c:82-88: the attributes listed (bigfile.c:665-669, 1713-1718) are set
   one by one from where they lie; codes are ignored *)
Fixpoint copy_attrs (e : env) (b : block) (src : attrset) (l : list attr) : out block :=
  match l with
  | [] => Ret b
  | a :: r =>
      name <- attr_name src a ;;
      '(_, s, m) <- attrset_set_attr (e_realloc e) (e_me e) (b_attrset b) name (as_mem src) (at_data a) (at_dtype a) (at_nmemb a) ;;
      copy_attrs e (set_attrs b s) (set_mem src m) r
  end.

(* bigfile-copy.c:97-117: the loop; exit code 1 on any failure. *)
Fixpoint copy_loop_rows (e : env) (f : fs) (b bnew : block) (chunk offset : Z) (p : bptr) (fuel : nat) : out (Z * fs * block) :=
  match fuel with
  | O => Diverge
  | S k =>
      if negb (u64 offset <? b_size b) then Ret (0, f, bnew) else
      '(rc, r) <- big_block_read_simple e f b offset chunk None ;;
      match (if rc =? 0 then r else None) with
      | None => Ret (1, f, bnew)
      | Some (a, um) =>
          '(rc, p) <- big_block_seek bnew p offset ;;
          if negb (rc =? 0) then Ret (1, f, bnew) else
          '(rc, f, bnew, p, _) <- big_block_write e f bnew p a um ;;
          if negb (rc =? 0) then Ret (1, f, bnew) else
          copy_loop_rows e f b bnew chunk (offset + hd 0 (a_dims a)) p k
      end
  end.

(* utils/bigfile-copy.c:14-127 main, after the options are read: the exit code
   and the files. Nfile is -1 if not given; newpath is the path if not given.
   Not modelled: the messages, and that exit leaves the handles open (nothing
   is written by closing the old block, whose handle is clean). *)
Definition bigfile_copy (e : env) (f : fs) (path newpath blk newblk : bytes) (Nfile buffersize : Z)
    (fuel : nat) : out (Z * fs) :=
  match big_file_open f path with
  | None => Ret (1, f)
  | Some bf =>
  let '(f, ob) := big_file_create f newpath in
  match ob with
  | None => Ret (1, f)
  | Some bfnew =>
  ob <- big_file_open_block e f bf blk ;;
  match ob with
  | None => Ret (1, f)
  | Some b =>
  let Nfile := if (Nfile =? -1) || (b_Nfile b =? 0) then b_Nfile b else Nfile in
  if Nfile + 10 <=? 0 then Undef OOB else
  '(f, ob) <- big_file_create_block e f bfnew newblk (Some (b_dtype b)) (b_nmemb b) Nfile (copy_sizes (b_size b) Nfile) ;;
  match ob with
  | None => Ret (1, f)
  | Some bnew =>
  if negb (b_size bnew =? b_size b) then Undef AbortCall else
  bnew <- copy_attrs e bnew (b_attrset b) (as_list (b_attrset b)) ;;
  '(rc, f, bnew) <- (if (0 <? b_nmemb b) && (0 <? b_size b) then
      let w := b_nmemb b * itemsize (e_me e) (b_dtype b) in
      if u64 w =? 0 then Undef DivZero else
      copy_loop_rows e f b bnew (buffersize / u64 w) 0 (mkPtr 0 0 0) fuel
    else Ret (0, f, bnew)) ;;
  if negb (rc =? 0) then Ret (1, f) else
  '(rc, f) <- big_block_close e f bnew ;;
  if negb (rc =? 0) then Ret (1, f) else
  '(_, f) <- big_block_close e f b ;;
  Ret (0, f)
  end end end end.
