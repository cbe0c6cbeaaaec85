(* Strided arrays, iterators and element conversion between them. *)
From Coq.Strings Require Import Byte String.
From Coq Require Import List ZArith Bool.
From Verif Require Import Base Dtype Cast.
Import ListNotations.
Open Scope Z_scope.
Local Open Scope out_scope.

(* bigfile.h BigArray: ndim = length of a_dims. dims/strides hold the first
   ndim entries of the 32-entry C arrays. *)
Record array : Type := mkArray {
  a_data : Z;          (* address *)
  a_dtype : bytes;     (* normalised *)
  a_dims : list Z;
  a_strides : list Z;
  a_size : Z
}.

(* strides of a C-contiguous array, computed from the last dimension
   (bigfile.c:1090-1093): returns the strides and the product so far. *)
Fixpoint contig_strides (elsize : Z) (dims : list Z) : list Z * Z :=
  match dims with
  | [] => ([], elsize)
  | d :: r => let '(s, p) := contig_strides elsize r in (p :: s, p * d)
  end.

(* bigfile.c:1069-1096 big_array_init; the strides argument may be NULL.
   ndim = 0 with NULL strides writes strides[-1] and ndim > 32 overruns the
   arrays. The product of the dims is not wrapped (it counts elements that
   exist in memory). *)
Definition big_array_init (me : endian) (buf : Z) (dtype : bytes)
    (dims : list Z) (strides : option (list Z)) : out array :=
  if (32 <? zlen dims) then Undef OOB else
  match strides with
  | Some st =>
      if Nat.eqb (length st) (length dims)
      then Ret (mkArray buf (dtype_normalize me dtype) dims st (zprod dims))
      else Undef OOB
  | None =>
      match dims with
      | [] => Undef OOB
      | _ => Ret (mkArray buf (dtype_normalize me dtype) dims
                    (fst (contig_strides (itemsize me dtype) dims)) (zprod dims))
      end
  end.

(* bigfile.h BigArrayIter *)
Record iter : Type := mkIter {
  it_arr : array;
  it_pos : list Z;
  it_ptr : Z;
  it_contig : bool
}.

(* bigfile.c:1112-1121: the contiguity test, last dimension first. *)
Fixpoint contig_check (expect : Z) (rdims rstr : list Z) : bool :=
  match rdims, rstr with
  | d :: rd, s :: rs => if s =? expect then contig_check (expect * d) rd rs else false
  | _, _ => true
  end.

(* bigfile.c:1099-1122 big_array_iter_init *)
Definition iter_init (me : endian) (a : array) : iter :=
  mkIter a (map (fun _ => 0) (a_dims a)) (a_data a)
    (contig_check (itemsize me (a_dtype a)) (rev (a_dims a)) (rev (a_strides a))).

(* bigfile.c:1136-1147: the carry loop, on reversed lists (last dim first). *)
Fixpoint carry (rpos rdims rstr : list Z) (ptr : Z) {struct rdims} : list Z * Z :=
  match rpos, rdims, rstr with
  | p :: rp, d :: rd, s :: rs =>
      if p =? d then
        match rp, rs with
        | p' :: rp', s' :: _ =>
            let '(q, ptr2) := carry ((p' + 1) :: rp') rd rs (ptr - s * p + s') in
            (0 :: q, ptr2)
        | _, _ => ([0], ptr - s * p)
        end
      else (rpos, ptr)
  | _, _, _ => (rpos, ptr)
  end.

(* bigfile.c:1125-1148 big_array_iter_advance; an array without dimensions
   reads strides[-1]. *)
Definition iter_advance (it : iter) : out iter :=
  match rev (a_strides (it_arr it)), rev (it_pos it) with
  | s :: rs, p :: rp =>
      if it_contig it then
        Ret (mkIter (it_arr it) (it_pos it) (it_ptr it + s) true)
      else
        let '(rpos, ptr) :=
          carry ((p + 1) :: rp) (rev (a_dims (it_arr it))) (s :: rs) (it_ptr it + s) in
        Ret (mkIter (it_arr it) (rev rpos) ptr false)
  | _, _ => Undef OOB
  end.

(* bigfile.c:1306-1310: the swap loop inside one element, j = 0 .. half-1. *)
Fixpoint swap_loop (l : bytes) (elsize : nat) (j half : nat) : bytes :=
  match half with
  | O => l
  | S half' =>
      let a := nth j l x00 in
      let b := nth (elsize - j - 1) l x00 in
      swap_loop (upd (upd l j b) (elsize - j - 1) a) elsize (S j) half'
  end.

(* bigfile.c:1293-1313 byte_swap: in place, element by element. *)
Fixpoint byte_swap_loop (m : mem) (it : iter) (elsize : Z) (n : nat) : out mem :=
  match n with
  | O => Ret m
  | S n' =>
      l <- or_ub OOB (load m (it_ptr it) (Z.to_nat elsize)) ;;
      m' <- or_ub OOB (store m (it_ptr it)
              (swap_loop l (Z.to_nat elsize) 0 (Z.to_nat (elsize / 2)))) ;;
      it' <- iter_advance it ;;
      byte_swap_loop m' it' elsize n'
  end.
Definition byte_swap (me : endian) (m : mem) (it : iter) (n : nat) : out mem :=
  let elsize := itemsize me (a_dtype (it_arr it)) in
  if elsize =? 1 then Ret m else byte_swap_loop m it elsize n.

(* One element at a time: load sw bytes at src, convert, store at dst,
   advance both (bigfile.c:1319-1323, 1354-1361). *)
Fixpoint copy_loop (f : bytes -> out bytes) (sw : nat)
    (dm : mem) (di : iter) (sm : mem) (si : iter) (n : nat)
    : out (mem * iter * iter) :=
  match n with
  | O => Ret (dm, di, si)
  | S n' =>
      l <- or_ub OOB (load sm (it_ptr si) sw) ;;
      l' <- f l ;;
      dm' <- or_ub OOB (store dm (it_ptr di) l') ;;
      di' <- iter_advance di ;;
      si' <- iter_advance si ;;
      copy_loop f sw dm' di' sm si' n'
  end.

Definition last_stride (a : array) : option Z :=
  match rev (a_strides a) with s :: _ => Some s | [] => None end.

(* bigfile.c:1335-1418 cast. The destination lives in dm, the source in sm
   (distinct objects). None: unsupported, return -1. A negative element size
   becomes a huge size_t: out of bounds. *)
Definition cast (me : endian) (dm : mem) (di : iter) (sm : mem) (si : iter) (n : nat)
    : out (option (mem * iter * iter)) :=
  let dt := suffix (a_dtype (it_arr di)) in
  let st := suffix (a_dtype (it_arr si)) in
  if bytes_eqb dt st then
    if it_contig di && it_contig si then
      sd <- or_ub OOB (last_stride (it_arr di)) ;;
      ss <- or_ub OOB (last_stride (it_arr si)) ;;
      if (Z.of_nat n * sd <? 0) then Undef OOB else
      l <- or_ub OOB (load sm (it_ptr si) (Z.to_nat (Z.of_nat n * sd))) ;;
      dm' <- or_ub OOB (store dm (it_ptr di) l) ;;
      Ret (Some (dm',
        mkIter (it_arr di) (it_pos di) (it_ptr di + Z.of_nat n * sd) (it_contig di),
        mkIter (it_arr si) (it_pos si) (it_ptr si + Z.of_nat n * ss) (it_contig si)))
    else
      let elsize := itemsize me (a_dtype (it_arr di)) in
      if (elsize <? 0) && negb (Nat.eqb n 0) then Undef OOB else
      r <- copy_loop Ret (Z.to_nat elsize) dm di sm si n ;;
      Ret (Some r)
  else
    match cast_table me dt st with
    | Some (sw, _, f) => r <- copy_loop f sw dm di sm si n ;; Ret (Some r)
    | None => Ret None
    end.

Definition native (me : endian) (a : array) : bool :=
  match a_dtype a with
  | c :: _ => Byte.eqb c (machine_char me)
  | [] => false
  end.

(* bigfile.c:1264-1290 _dtype_convert. Returns the return code, the two
   memories and the two iterators. Note that a source of foreign byte order
   is swapped in place in the caller's memory. *)
Definition dtype_convert (me : endian) (dm : mem) (di : iter) (sm : mem) (si : iter) (n : nat)
    : out (Z * mem * iter * mem * iter) :=
  sm1 <- (if native me (it_arr si) then Ret sm else byte_swap me sm si n) ;;
  r <- cast me dm di sm1 si n ;;
  match r with
  | None => Ret (-1, dm, di, sm1, si)
  | Some (dm1, di1, si1) =>
      dm2 <- (if native me (it_arr di) then Ret dm1 else byte_swap me dm1 di n) ;;
      Ret (0, dm2, di1, sm1, si1)
  end.

(* bigfile.c:1250-1260 dtype_convert_simple: two contiguous 1-d arrays. *)
Definition dtype_convert_simple (me : endian) (dm : mem) (dst : Z) (dstdtype : bytes)
    (sm : mem) (src : Z) (srcdtype : bytes) (nmemb : Z) : out (Z * mem * mem) :=
  da <- big_array_init me dst dstdtype [nmemb] None ;;
  sa <- big_array_init me src srcdtype [nmemb] None ;;
  '(rc, dm', _, sm', _) <- dtype_convert me dm (iter_init me da) sm (iter_init me sa)
                             (Z.to_nat nmemb) ;;
  Ret (rc, dm', sm').
