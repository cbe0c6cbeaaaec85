(* Independent specifications used in the statements of the properties. *)
From Coq.Strings Require Import Byte String.
From Coq Require Import List ZArith Lia Bool.
From Verif Require Import Base Dtype Cast Array FS Block.
Import ListNotations.
Open Scope Z_scope.

(* ---------------------------------------------------------------------- *)
(* Layout of a block: a list of physical file sizes, in rows.               *)

(* First row of file i. *)
Definition first_row (sizes : list Z) (i : nat) : Z := zsum (firstn i sizes).

(* File holding row r and the row's number inside that file. *)
Fixpoint home (sizes : list Z) (r : Z) : option (nat * Z) :=
  match sizes with
  | [] => None
  | s :: rest =>
      if (r <? 0) then None
      else if r <? s then Some (O, r)
      else match home rest (r - s) with
           | Some (i, q) => Some (S i, q)
           | None => None
           end
  end.

(* A block handle that describes the layout [sizes]. *)
Record has_layout (b : block) (sizes : list Z) : Prop := {
  hl_nonneg : Forall (fun s => 0 <= s) sizes;
  hl_small : zsum sizes < 2 ^ 63;
  hl_count : zlen sizes < 2 ^ 31;
  hl_Nfile : b_Nfile b = zlen sizes;
  hl_fsize : b_fsize b = sizes ++ [0];
  hl_foffset : b_foffset b = map (first_row sizes) (seq 0 (S (length sizes)));
  hl_size : b_size b = zsum sizes;
  hl_cks : length (b_fchecksum b) = S (length sizes);
  hl_cksr : Forall (fun c => 0 <= c < 2 ^ 32) (b_fchecksum b)
}.

(* A pointer at absolute row o: the file and offset name that row, and inside
   the block the offset is a row of that file. *)
Record ptr_at (sizes : list Z) (p : bptr) (o : Z) : Prop := {
  pa_range : 0 <= o <= zsum sizes;
  pa_file : 0 <= p_fileid p <= zlen sizes;
  pa_abs : first_row sizes (Z.to_nat (p_fileid p)) + p_roffset p = o;
  pa_aoff : p_aoffset p = o;
  pa_roff : 0 <= p_roffset p;
  pa_in : o < zsum sizes ->
          home sizes o = Some (Z.to_nat (p_fileid p), p_roffset p)
}.

(* ---------------------------------------------------------------------- *)
(* Arrays: row-major traversal.                                             *)

(* The multi-index of the k-th element in row-major (C) order. *)
Fixpoint row_major (dims : list Z) (k : Z) : list Z :=
  match dims with
  | [] => []
  | _ :: r => k / zprod r :: row_major r (k mod zprod r)
  end.

Fixpoint dot (a b : list Z) : Z :=
  match a, b with
  | x :: a', y :: b' => x * y + dot a' b'
  | _, _ => 0
  end.

(* Address of the k-th element. *)
Definition elem_addr (a : array) (k : Z) : Z :=
  a_data a + dot (row_major (a_dims a) k) (a_strides a).

(* A non-empty array whose description is consistent. *)
Record array_ok (a : array) : Prop := {
  ao_len : length (a_strides a) = length (a_dims a);
  ao_ndim : a_dims a <> [];
  ao_pos : Forall (fun d => 0 < d) (a_dims a);
  ao_size : a_size a = zprod (a_dims a)
}.

(* Byte x belongs to one of the elements k .. k+n-1 (w bytes each). *)
Definition in_elems (addr : Z -> Z) (w : Z) (k n : Z) (x : Z) : Prop :=
  exists j, k <= j < k + n /\ addr j <= x < addr j + w.

(* Elements k .. k+n-1 do not overlap. *)
Definition elems_disjoint (addr : Z -> Z) (w : Z) (k n : Z) : Prop :=
  forall i j, k <= i < j -> j < k + n ->
    addr i + w <= addr j \/ addr j + w <= addr i.

(* m' is m with elements k, k+1, ... holding vs, and nothing else changed. *)
Definition wrote (m m' : mem) (addr : Z -> Z) (w : Z) (k : Z) (vs : list bytes) : Prop :=
  (forall j v, nth_error vs j = Some v ->
     load m' (addr (k + Z.of_nat j)) (Z.to_nat w) = Some v) /\
  (forall x, ~ in_elems addr w k (zlen vs) x -> m' x = m x).

(* Elements k, k+1, ... hold vs. *)
Definition holds (m : mem) (addr : Z -> Z) (w : Z) (k : Z) (vs : list bytes) : Prop :=
  forall j v, nth_error vs j = Some v ->
    load m (addr (k + Z.of_nat j)) (Z.to_nat w) = Some v.

(* All bytes of elements k .. k+n-1 are accessible. *)
Definition mapped (m : mem) (addr : Z -> Z) (w : Z) (k n : Z) : Prop :=
  forall x, in_elems addr w k n x -> m x <> None.

(* ---------------------------------------------------------------------- *)
(* Element types and conversion of one element.                             *)

(* A normalised element type of positive width. *)
Definition dt_ok (me : endian) (d : bytes) : Prop :=
  dtype_normalize me d = d /\ 0 < itemsize me d.

(* Is the type stored in the machine's own byte order? *)
Definition dt_native (me : endian) (d : bytes) : bool :=
  match d with c :: _ => Byte.eqb c (machine_char me) | [] => false end.

(* Between storage order and machine order: the whole element is reversed
   when the orders differ. *)
Definition reorder (me : endian) (d : bytes) (v : bytes) : bytes :=
  if dt_native me d then v else rev v.

(* Conversion of one element of type sd into type dd. None: unsupported. *)
Definition conv_elem (me : endian) (sd dd : bytes) (v : bytes) : option (out bytes) :=
  if bytes_eqb (suffix dd) (suffix sd) then Some (Ret (reorder me dd (reorder me sd v)))
  else match cast_table me (suffix dd) (suffix sd) with
       | Some (_, _, f) =>
           Some (match f (reorder me sd v) with
                 | Ret r => Ret (reorder me dd r)
                 | Undef u => Undef u
                 | Diverge => Diverge
                 end)
       | None => None
       end.

(* The conversion exists and is defined on this element. *)
Definition converts (me : endian) (sd dd : bytes) (v r : bytes) : Prop :=
  conv_elem me sd dd v = Some (Ret r).

(* The conversion exists at all. *)
Definition convertible (me : endian) (sd dd : bytes) : Prop :=
  suffix dd = suffix sd \/ cast_table me (suffix dd) (suffix sd) <> None.

(* ---------------------------------------------------------------------- *)
(* Contents of a block: rows of w bytes in the physical files.              *)

(* Two file systems with the same contents. *)
Definition fs_eq (f g : fs) : Prop := forall p, fs_get f p = fs_get g p.

(* Contents of physical file i of the block stored under base. *)
Definition data_file (f : fs) (base : bytes) (i : nat) : option bytes :=
  match fs_get f (data_path base (Z.of_nat i)) with
  | Some (File c) => Some c
  | _ => None
  end.

(* The bytes of row r, if the file that should hold it is long enough. *)
Definition stored_row (f : fs) (base : bytes) (sizes : list Z) (w : Z) (r : Z) : option bytes :=
  match home sizes r with
  | Some (i, q) =>
      match data_file f base i with
      | Some c => if (q + 1) * w <=? zlen c
                  then Some (firstn (Z.to_nat w) (skipn (Z.to_nat (q * w)) c)) else None
      | None => None
      end
  | None => None
  end.

(* Write the bytes of one row at its place; a file that is too short is
   extended with zeros. *)
Definition put_row (f : fs) (base : bytes) (sizes : list Z) (w : Z) (r : Z) (v : bytes) : fs :=
  match home sizes r with
  | Some (i, q) =>
      match data_file f base i with
      | Some c =>
          let pad := c ++ repeat x00 (Z.to_nat (q * w) - length c) in
          fs_set f (data_path base (Z.of_nat i))
            (File (firstn (Z.to_nat (q * w)) pad ++ v ++ skipn (Z.to_nat (q * w) + length v) c))
      | None => f
      end
  | None => f
  end.

Fixpoint put_rows (f : fs) (base : bytes) (sizes : list Z) (w : Z) (r : Z) (rows : list bytes) : fs :=
  match rows with
  | [] => f
  | v :: rest => put_rows (put_row f base sizes w r v) base sizes w (r + 1) rest
  end.

(* Sum of the bytes written to each file, modulo 2^32. *)
Definition byte_sum (l : bytes) : Z := zsum (map b2z l).

Definition add_sum (cks : list Z) (sizes : list Z) (r : Z) (v : bytes) : list Z :=
  match home sizes r with
  | Some (i, _) => upd cks i ((nth i cks 0 + byte_sum v) mod 2 ^ 32)
  | None => cks
  end.

Fixpoint add_sums (cks : list Z) (sizes : list Z) (r : Z) (rows : list bytes) : list Z :=
  match rows with
  | [] => cks
  | v :: rest => add_sums (add_sum cks sizes r v) sizes (r + 1) rest
  end.

(* Cut a list into n pieces of k. *)
Fixpoint group {A} (k : nat) (n : nat) (l : list A) : list (list A) :=
  match n with
  | O => []
  | S n' => firstn k l :: group k n' (skipn k l)
  end.

(* The rows made of consecutive elements, nmemb elements per row. *)
Definition rows_of (nmemb n : Z) (es : list bytes) : list bytes :=
  map (@concat byte) (group (Z.to_nat nmemb) (Z.to_nat n) es).

(* All physical files of the block exist as files. *)
Definition files_exist (f : fs) (base : bytes) (sizes : list Z) : Prop :=
  forall i, (i < length sizes)%nat -> data_file f base i <> None.

(* The physical files that should hold rows lo .. hi-1 exist. *)
Definition rows_exist (f : fs) (base : bytes) (sizes : list Z) (lo hi : Z) : Prop :=
  forall r i q, lo <= r < hi -> home sizes r = Some (i, q) -> data_file f base i <> None.

(* A handle of a data block: it describes the layout [sizes], its element type
   is normalised, each row has at least one element and takes w bytes. *)
Record wblock (e : env) (b : block) (sizes : list Z) (w : Z) : Prop := {
  wb_layout : has_layout b sizes;
  wb_dt : dt_ok (e_me e) (b_dtype b);
  wb_nmemb : 0 < b_nmemb b;
  wb_w : w = itemsize (e_me e) (b_dtype b) * b_nmemb b
}.

(* Every physical file holds a whole number of rows, at most as many as the
   layout gives it. *)
Definition whole_rows (f : fs) (base : bytes) (sizes : list Z) (w : Z) : Prop :=
  forall i c, (i < length sizes)%nat -> data_file f base i = Some c ->
    exists k, 0 <= k <= nth i sizes 0 /\ zlen c = k * w.

(* Rows r and r' lie in the same physical file. *)
Definition same_file (sizes : list Z) (r r' : Z) : Prop :=
  exists i q q', home sizes r = Some (i, q) /\ home sizes r' = Some (i, q').

(* The recorded checksum of every physical file is the sum of its bytes. *)
Definition sums_ok (f : fs) (base : bytes) (sizes cks : list Z) : Prop :=
  forall i c, (i < length sizes)%nat -> data_file f base i = Some c ->
    nth i cks 0 = byte_sum c mod 2 ^ 32.

(* Numeric value of an object representation on a machine. *)
Definition value (me : endian) (v : bytes) : Z :=
  match me with LE => le_val v | BE => le_val (rev v) end.

(* The pairs of element types (without byte order) between which the library
   promises a conversion. *)
Definition numeric_types : list bytes := map lit ["i4"; "i8"; "u4"; "u8"; "f4"; "f8"]%string.
Definition has_conversion (src dst : bytes) : Prop :=
  src = dst \/
  (In dst numeric_types /\ (In src numeric_types \/ src = lit "b1")) \/
  (dst = lit "c8" /\ src = lit "c16") \/ (dst = lit "c16" /\ src = lit "c8").

(* k steps of an iterator. *)
Fixpoint advance (k : nat) (it : iter) : out iter :=
  match k with O => Ret it | S k' => bind (iter_advance it) (advance k') end.
