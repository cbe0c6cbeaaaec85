(* Properties C01 - C08, C11, C20, C21, C24, C25: seeking and transfers. *)
From Coq.Strings Require Import Byte String.
From Coq Require Import List ZArith Lia Bool.
From Verif Require Import Base BaseFacts Dtype Cast Array FS Fmt Attr Block Spec SeekFacts ArrayFacts ConvFacts WriteFacts ReadFacts TableFacts IOFacts Ex.
Import ListNotations.
Open Scope Z_scope.

(* ------------------------------------------------------------------ C01 *)
Theorem C01_seek : forall b sizes p o, has_layout b sizes -> - 2 ^ 63 <= o < 2 ^ 63 ->
  (0 <= o <= zsum sizes ->
     exists p', big_block_seek b p o = Ret (0, p') /\ ptr_at sizes p' o) /\
  (- zsum sizes <= o < 0 ->
     exists p', big_block_seek b p o = Ret (0, p') /\ ptr_at sizes p' (zsum sizes + o)) /\
  (o < - zsum sizes \/ zsum sizes < o -> big_block_seek b p o = Ret (-1, p)).
Proof. exact seek_spec. Qed.

(* The meaning of the pointer: it lies inside its file, so empty files are
   skipped. *)
Theorem C01_pointer_inside : forall b sizes p o, has_layout b sizes -> ptr_at sizes p o -> o < zsum sizes ->
  0 <= p_fileid p < zlen sizes /\
  0 <= p_roffset p < nth (Z.to_nat (p_fileid p)) sizes 0 /\
  home sizes o = Some (Z.to_nat (p_fileid p), p_roffset p).
Proof. exact ptr_in. Qed.

Example C01_example : has_layout ex_b ex_sizes /\
  big_block_seek ex_b ex_p 2 = Ret (0, mkPtr 2 0 2) /\
  big_block_seek ex_b ex_p (-5) = Ret (0, mkPtr 0 0 0) /\
  big_block_seek ex_b ex_p 6 = Ret (-1, ex_p).
Proof. split; [apply ex_layout|]. vm_compute. auto. Qed.

(* ------------------------------------------------------------------ C02 *)
Theorem C02_seek_rel : forall b sizes p a d, has_layout b sizes -> ptr_at sizes p a ->
  - 2 ^ 63 <= d < 2 ^ 63 -> - 2 ^ 63 <= a + d < 2 ^ 63 ->
  (0 <= a + d <= zsum sizes ->
     exists p', big_block_seek_rel b p d = Ret (0, p') /\ ptr_at sizes p' (a + d)) /\
  (zsum sizes < a + d -> big_block_seek_rel b p d = Ret (-1, p)).
Proof. exact seek_rel_moves. Qed.

Theorem C02_eof : forall b sizes p a, has_layout b sizes -> ptr_at sizes p a ->
  big_block_eof b p = Ret (a =? zsum sizes).
Proof. exact eof_spec. Qed.

Example C02_example : ptr_at ex_sizes ex_p 1 /\
  big_block_seek_rel ex_b ex_p 4 = Ret (0, mkPtr 2 3 5) /\ big_block_eof ex_b (mkPtr 2 3 5) = Ret true /\
  big_block_seek_rel ex_b ex_p 5 = Ret (-1, ex_p).
Proof. split; [apply ex_ptr|]. vm_compute. auto. Qed.

(* ------------------------------------------------------------------ C03 *)
(* The same element type on both sides (the block may have the other byte
   order): exactly the written elements come back. *)
Theorem C03_read_after_write : forall e1 e2 sizes w f b1 b2 p1 p2 a1 a2 um1 um2 o n vs,
  e_me e1 = e_me e2 ->
  wblock e1 b1 sizes w -> wblock e2 b2 sizes w ->
  b_base b2 = b_base b1 -> b_dtype b2 = b_dtype b1 -> b_nmemb b2 = b_nmemb b1 ->
  w <= e_chunk e1 -> w <= e_chunk e2 -> w < 2 ^ 31 ->
  array_ok a1 -> array_ok a2 -> a_dtype a2 = a_dtype a1 -> dt_ok (e_me e1) (a_dtype a1) ->
  suffix (a_dtype a1) = suffix (b_dtype b1) ->
  n = a_size a1 / b_nmemb b1 -> n = a_size a2 / b_nmemb b1 -> zlen vs = n * b_nmemb b1 ->
  holds um1 (elem_addr a1) (itemsize (e_me e1) (a_dtype a1)) 0 vs ->
  (dt_native (e_me e1) (a_dtype a1) = false ->
     elems_disjoint (elem_addr a1) (itemsize (e_me e1) (a_dtype a1)) 0 (zlen vs)) ->
  mapped um2 (elem_addr a2) (itemsize (e_me e2) (a_dtype a2)) 0 (zlen vs) ->
  elems_disjoint (elem_addr a2) (itemsize (e_me e2) (a_dtype a2)) 0 (zlen vs) ->
  ptr_at sizes p1 o -> ptr_at sizes p2 o -> o + n <= zsum sizes -> files_exist f (b_base b1) sizes ->
  exists f' b1' p1' um1' p2' um2',
    big_block_write e1 f b1 p1 a1 um1 = Ret (0, f', b1', p1', um1') /\
    big_block_read e2 f' b2 p2 a2 um2 = Ret (0, p2', um2') /\
    ptr_at sizes p1' (o + n) /\ ptr_at sizes p2' (o + n) /\
    wrote um2 um2' (elem_addr a2) (itemsize (e_me e2) (a_dtype a2)) 0 vs.
Proof. exact write_then_read_same. Qed.

(* Different element types: each element is converted twice. *)
Theorem C03_read_after_write_converting : forall e1 e2 sizes w f b1 b2 p1 p2 a1 a2 um1 um2 o n vs outs res,
  e_me e1 = e_me e2 ->
  wblock e1 b1 sizes w -> wblock e2 b2 sizes w ->
  b_base b2 = b_base b1 -> b_dtype b2 = b_dtype b1 -> b_nmemb b2 = b_nmemb b1 ->
  w <= e_chunk e1 -> w <= e_chunk e2 -> w < 2 ^ 31 ->
  array_ok a1 -> array_ok a2 -> dt_ok (e_me e1) (a_dtype a1) -> dt_ok (e_me e2) (a_dtype a2) ->
  n = a_size a1 / b_nmemb b1 -> n = a_size a2 / b_nmemb b1 -> zlen vs = n * b_nmemb b1 ->
  convertible (e_me e1) (a_dtype a1) (b_dtype b1) -> convertible (e_me e2) (b_dtype b1) (a_dtype a2) ->
  holds um1 (elem_addr a1) (itemsize (e_me e1) (a_dtype a1)) 0 vs ->
  (dt_native (e_me e1) (a_dtype a1) = false ->
     elems_disjoint (elem_addr a1) (itemsize (e_me e1) (a_dtype a1)) 0 (zlen vs)) ->
  mapped um2 (elem_addr a2) (itemsize (e_me e2) (a_dtype a2)) 0 (zlen vs) ->
  elems_disjoint (elem_addr a2) (itemsize (e_me e2) (a_dtype a2)) 0 (zlen vs) ->
  Forall2 (converts (e_me e1) (a_dtype a1) (b_dtype b1)) vs outs ->
  Forall2 (converts (e_me e2) (b_dtype b1) (a_dtype a2)) outs res ->
  ptr_at sizes p1 o -> ptr_at sizes p2 o -> o + n <= zsum sizes -> files_exist f (b_base b1) sizes ->
  exists f' b1' p1' um1' p2' um2',
    big_block_write e1 f b1 p1 a1 um1 = Ret (0, f', b1', p1', um1') /\
    big_block_read e2 f' b2 p2 a2 um2 = Ret (0, p2', um2') /\
    ptr_at sizes p1' (o + n) /\ ptr_at sizes p2' (o + n) /\
    wrote um2 um2' (elem_addr a2) (itemsize (e_me e2) (a_dtype a2)) 0 res.
Proof. exact write_then_read. Qed.

(* Three rows across a file boundary and an empty file, strided source,
   backwards destination, different buffer sizes, foreign byte order. *)
Example C03_example : exists f' b1' p1' um1' p2' um2',
    big_block_write ex_e ex_f ex_b ex_p ex_a ex_um = Ret (0, f', b1', p1', um1') /\
    big_block_read ex_e9 f' ex_b ex_p ex_a2 ex_um = Ret (0, p2', um2') /\
    ptr_at ex_sizes p1' 4 /\ ptr_at ex_sizes p2' 4 /\
    wrote ex_um um2' (elem_addr ex_a2) 4 0 ex_vs.
Proof.
  apply (C03_read_after_write ex_e ex_e9 ex_sizes 8 ex_f ex_b ex_b ex_p ex_p ex_a ex_a2 ex_um ex_um 1 3 ex_vs); ex_tac.
Qed.

(* ------------------------------------------------------------------ C04 *)
Theorem C04_write_frame : forall e sizes w a f b p um o vs outs n,
  wblock e b sizes w -> w <= e_chunk e -> w < 2 ^ 31 ->
  array_ok a -> dt_ok (e_me e) (a_dtype a) ->
  convertible (e_me e) (a_dtype a) (b_dtype b) ->
  n = a_size a / b_nmemb b -> zlen vs = n * b_nmemb b ->
  holds um (elem_addr a) (itemsize (e_me e) (a_dtype a)) 0 vs ->
  (dt_native (e_me e) (a_dtype a) = false ->
     elems_disjoint (elem_addr a) (itemsize (e_me e) (a_dtype a)) 0 (zlen vs)) ->
  Forall2 (converts (e_me e) (a_dtype a) (b_dtype b)) vs outs ->
  ptr_at sizes p o -> o + n <= zsum sizes -> files_exist f (b_base b) sizes ->
  whole_rows f (b_base b) sizes w ->
  exists f' b' p' um',
    big_block_write e f b p a um = Ret (0, f', b', p', um') /\
    (forall j v, nth_error (rows_of (b_nmemb b) n outs) j = Some v ->
       stored_row f' (b_base b) sizes w (o + Z.of_nat j) = Some v) /\
    (forall r u, r < o \/ o + n <= r ->
       (stored_row f (b_base b) sizes w r = Some u -> stored_row f' (b_base b) sizes w r = Some u) /\
       (stored_row f (b_base b) sizes w r = None ->
          (stored_row f' (b_base b) sizes w r = Some u <->
             u = repeat x00 (Z.to_nat w) /\
             exists r2, o <= r2 < o + n /\ r < r2 /\ same_file sizes r2 r))) /\
    (forall q, (forall r i k, o <= r < o + n -> home sizes r = Some (i, k) -> q <> data_path (b_base b) (Z.of_nat i)) ->
       fs_get f' q = fs_get f q) /\
    files_exist f' (b_base b) sizes /\ whole_rows f' (b_base b) sizes w.
Proof. exact write_frame. Qed.

Example C04_example :
  wblock ex_e ex_b ex_sizes 8 /\ array_ok ex_a /\ dt_ok LE (lit "<i4") /\
  convertible LE (a_dtype ex_a) (b_dtype ex_b) /\ holds ex_um (elem_addr ex_a) 4 0 ex_vs /\
  Forall2 (converts LE (a_dtype ex_a) (b_dtype ex_b)) ex_vs ex_outs /\ ptr_at ex_sizes ex_p 1 /\
  files_exist ex_f1 (b_base ex_b) ex_sizes /\ whole_rows ex_f1 (b_base ex_b) ex_sizes 8 /\
  stored_row ex_f1 (b_base ex_b) ex_sizes 8 2 = Some (lit "abcdefgh").
Proof.
  repeat (split; [ex_tac|]). ex_tac.
Qed.

(* ------------------------------------------------------------------ C05 *)
Theorem C05_write_out_of_range : forall e sizes w a f b p um o,
  wblock e b sizes w -> w < 2 ^ 31 -> a_size a <> 0 ->
  ptr_at sizes p o -> zsum sizes < o + a_size a / b_nmemb b -> o + a_size a / b_nmemb b < 2 ^ 64 ->
  big_block_write e f b p a um = Ret (-1, f, set_bdirty b true, p, um).
Proof. exact write_range. Qed.

Theorem C05_read_out_of_range : forall e sizes w a f b p um o,
  wblock e b sizes w -> w < 2 ^ 31 ->
  ptr_at sizes p o -> zsum sizes < o + a_size a / b_nmemb b -> o + a_size a / b_nmemb b < 2 ^ 64 ->
  big_block_read e f b p a um = Ret (-1, p, um).
Proof. exact read_range. Qed.

Example C05_example :
  big_block_write ex_e ex_f1 ex_b ex_p ex_along ex_um = Ret (-1, ex_f1, set_bdirty ex_b true, ex_p, ex_um) /\
  big_block_read ex_e ex_f1 ex_b ex_p ex_along ex_um = Ret (-1, ex_p, ex_um).
Proof.
  split.
  - apply (C05_write_out_of_range ex_e ex_sizes 8 ex_along ex_f1 ex_b ex_p ex_um 1); ex_tac.
  - apply (C05_read_out_of_range ex_e ex_sizes 8 ex_along ex_f1 ex_b ex_p ex_um 1); ex_tac.
Qed.

(* ------------------------------------------------------------------ C06 *)
Theorem C06_write_buffer_size : forall e e' sizes w a f b p um o vs outs n,
  e_me e' = e_me e -> w <= e_chunk e' ->
  wblock e b sizes w -> w <= e_chunk e -> w < 2 ^ 31 ->
  array_ok a -> dt_ok (e_me e) (a_dtype a) ->
  convertible (e_me e) (a_dtype a) (b_dtype b) ->
  n = a_size a / b_nmemb b -> zlen vs = n * b_nmemb b ->
  holds um (elem_addr a) (itemsize (e_me e) (a_dtype a)) 0 vs ->
  (dt_native (e_me e) (a_dtype a) = false ->
     elems_disjoint (elem_addr a) (itemsize (e_me e) (a_dtype a)) 0 (zlen vs)) ->
  Forall2 (converts (e_me e) (a_dtype a) (b_dtype b)) vs outs ->
  ptr_at sizes p o -> o + n <= zsum sizes -> files_exist f (b_base b) sizes ->
  exists f1 f2 b' p1 p2 um1 um2,
    big_block_write e f b p a um = Ret (0, f1, b', p1, um1) /\
    big_block_write e' f b p a um = Ret (0, f2, b', p2, um2) /\
    fs_eq f1 f2 /\ (forall x, um1 x = um2 x) /\
    ptr_at sizes p1 (o + n) /\ ptr_at sizes p2 (o + n).
Proof. exact write_buffer. Qed.

Theorem C06_read_buffer_size : forall e e' sizes w a f b p um o es outs n,
  e_me e' = e_me e -> w <= e_chunk e' ->
  wblock e b sizes w -> w <= e_chunk e -> w < 2 ^ 31 ->
  array_ok a -> dt_ok (e_me e) (a_dtype a) ->
  convertible (e_me e) (b_dtype b) (a_dtype a) ->
  n = a_size a / b_nmemb b -> zlen es = n * b_nmemb b ->
  Forall (fun v => length v = Z.to_nat (itemsize (e_me e) (b_dtype b))) es ->
  (forall j v, nth_error (rows_of (b_nmemb b) n es) j = Some v ->
     stored_row f (b_base b) sizes w (o + Z.of_nat j) = Some v) ->
  Forall2 (converts (e_me e) (b_dtype b) (a_dtype a)) es outs ->
  mapped um (elem_addr a) (itemsize (e_me e) (a_dtype a)) 0 (zlen es) ->
  elems_disjoint (elem_addr a) (itemsize (e_me e) (a_dtype a)) 0 (zlen es) ->
  ptr_at sizes p o -> o + n <= zsum sizes ->
  exists p1 p2 um1 um2,
    big_block_read e f b p a um = Ret (0, p1, um1) /\
    big_block_read e' f b p a um = Ret (0, p2, um2) /\
    (forall x, um1 x = um2 x) /\
    ptr_at sizes p1 (o + n) /\ ptr_at sizes p2 (o + n).
Proof. exact read_buffer. Qed.

Example C06_example : exists f1 f2 b' p1 p2 um1 um2,
    big_block_write ex_e ex_f ex_b ex_p ex_a ex_um = Ret (0, f1, b', p1, um1) /\
    big_block_write ex_e9 ex_f ex_b ex_p ex_a ex_um = Ret (0, f2, b', p2, um2) /\
    fs_eq f1 f2 /\ (forall x, um1 x = um2 x) /\ ptr_at ex_sizes p1 4 /\ ptr_at ex_sizes p2 4.
Proof.
  apply (C06_write_buffer_size ex_e ex_e9 ex_sizes 8 ex_a ex_f ex_b ex_p ex_um 1 ex_vs ex_outs 3); ex_tac.
Qed.

(* ------------------------------------------------------------------ C07 *)
(* Reads end for every buffer size. *)
Theorem C07_read_terminates : forall e sizes w a f b p um o,
  wblock e b sizes w -> w < 2 ^ 31 -> 0 <= e_chunk e -> 0 <= a_size a < 2 ^ 63 -> ptr_at sizes p o ->
  big_block_read e f b p a um <> Diverge.
Proof. exact read_ends. Qed.

(* Writes end when a row fits in the buffer. *)
Theorem C07_write_terminates_partial : forall e sizes w a f b p um o,
  wblock e b sizes w -> w < 2 ^ 31 -> w <= e_chunk e -> 0 <= a_size a < 2 ^ 63 -> ptr_at sizes p o ->
  big_block_write e f b p a um <> Diverge.
Proof. exact write_ends. Qed.

(* Otherwise they never end, whatever the number of chunk transfers. *)
Theorem C07_write_never_ends : forall e sizes w a f b p um o n,
  wblock e b sizes w -> 0 <= e_chunk e < w -> w < 2 ^ 31 ->
  array_ok a -> dt_ok (e_me e) (a_dtype a) ->
  convertible (e_me e) (a_dtype a) (b_dtype b) ->
  n = a_size a / b_nmemb b -> 0 < n ->
  ptr_at sizes p o -> o + n <= zsum sizes -> files_exist f (b_base b) sizes ->
  forall fuel, big_block_write_fuel e f b p a um fuel = Diverge.
Proof. exact write_stuck. Qed.

(* The full claim is false of the code. *)
Theorem C07_termination_refuted : exists e sizes w a f b p um o,
  wblock e b sizes w /\ w < 2 ^ 31 /\ 0 <= e_chunk e /\ array_ok a /\ ptr_at sizes p o /\
  forall fuel, big_block_write_fuel e f b p a um fuel = Diverge.
Proof.
  exists (ex_env LE 7), ex_sizes, 8, ex_a, ex_f, ex_b, ex_p, ex_um, 1.
  split; [apply ex_wblock|]. split; [reflexivity|]. split; [discriminate|]. split; [apply ex_array|].
  split; [apply ex_ptr|].
  apply (C07_write_never_ends (ex_env LE 7) ex_sizes 8 ex_a ex_f ex_b ex_p ex_um 1 3); ex_tac.
Qed.

Example C07_example : big_block_write ex_e ex_f ex_b ex_p ex_a ex_um <> Diverge /\
  big_block_read (ex_env LE 7) ex_f1 ex_b ex_p ex_a ex_um <> Diverge.
Proof.
  split.
  - apply (C07_write_terminates_partial ex_e ex_sizes 8 _ _ _ _ _ 1); ex_tac.
  - apply (C07_read_terminates (ex_env LE 7) ex_sizes 8 _ _ _ _ _ 1); ex_tac.
Qed.

(* ------------------------------------------------------------------ C11 *)
Theorem C11_traversal : forall me a k, array_ok a -> Z.of_nat k < a_size a ->
  exists it, advance k (iter_init me a) = Ret it /\
    it_ptr it = a_data a + dot (row_major (a_dims a) (Z.of_nat k)) (a_strides a).
Proof. exact traversal. Qed.

(* A successful read changes only the bytes of the elements (second half of
   [wrote]); so does a read that fails because rows are missing. *)
Theorem C11_read_into_strided : forall e sizes w a f b p um o es outs n,
  wblock e b sizes w -> w <= e_chunk e -> w < 2 ^ 31 ->
  array_ok a -> dt_ok (e_me e) (a_dtype a) ->
  convertible (e_me e) (b_dtype b) (a_dtype a) ->
  n = a_size a / b_nmemb b -> zlen es = n * b_nmemb b ->
  Forall (fun v => length v = Z.to_nat (itemsize (e_me e) (b_dtype b))) es ->
  (forall j v, nth_error (rows_of (b_nmemb b) n es) j = Some v ->
     stored_row f (b_base b) sizes w (o + Z.of_nat j) = Some v) ->
  Forall2 (converts (e_me e) (b_dtype b) (a_dtype a)) es outs ->
  mapped um (elem_addr a) (itemsize (e_me e) (a_dtype a)) 0 (zlen es) ->
  elems_disjoint (elem_addr a) (itemsize (e_me e) (a_dtype a)) 0 (zlen es) ->
  ptr_at sizes p o -> o + n <= zsum sizes ->
  exists p' um',
    big_block_read e f b p a um = Ret (0, p', um') /\
    ptr_at sizes p' (o + n) /\
    wrote um um' (elem_addr a) (itemsize (e_me e) (a_dtype a)) 0 outs.
Proof. exact read_spec. Qed.

Theorem C11_failed_read_frame : forall e sizes w a f b p um o n,
  wblock e b sizes w -> w <= e_chunk e -> w < 2 ^ 31 ->
  array_ok a -> dt_ok (e_me e) (a_dtype a) ->
  total_conv (e_me e) (b_dtype b) (a_dtype a) ->
  n = a_size a / b_nmemb b ->
  (exists r, o <= r < o + n /\ stored_row f (b_base b) sizes w r = None) ->
  mapped um (elem_addr a) (itemsize (e_me e) (a_dtype a)) 0 (a_size a) ->
  elems_disjoint (elem_addr a) (itemsize (e_me e) (a_dtype a)) 0 (a_size a) ->
  ptr_at sizes p o -> o + n <= zsum sizes ->
  exists p' um',
    big_block_read e f b p a um = Ret (-1, p', um') /\
    (forall x, ~ in_elems (elem_addr a) (itemsize (e_me e) (a_dtype a)) 0 (a_size a) x -> um' x = um x).
Proof. exact read_missing. Qed.

Example C11_example : array_ok ex_a2 /\ mapped ex_um (elem_addr ex_a2) 4 0 6 /\
  elems_disjoint (elem_addr ex_a2) 4 0 6 /\ map (elem_addr ex_a2) [0; 1; 5] = [1000; 992; 960] /\
  map (elem_addr ex_a) [0; 1; 2; 5] = [100; 104; 116; 136].
Proof. split; [apply ex_array2|]. split; [apply ex_mapped2|]. split; [apply ex_disjoint2|]. vm_compute. auto. Qed.

(* ------------------------------------------------------------------ C20 *)
Theorem C20_portable : forall e1 e2 sizes w f b1 b2 p1 p2 a1 a2 um1 um2 o n vs,
  wblock e1 b1 sizes w -> wblock e2 b2 sizes w ->
  b_base b2 = b_base b1 -> b_dtype b2 = b_dtype b1 -> b_nmemb b2 = b_nmemb b1 ->
  w <= e_chunk e1 -> w <= e_chunk e2 -> w < 2 ^ 31 ->
  array_ok a1 -> array_ok a2 -> dt_ok (e_me e1) (a_dtype a1) -> dt_ok (e_me e2) (a_dtype a2) ->
  suffix (a_dtype a1) = suffix (b_dtype b1) -> suffix (a_dtype a2) = suffix (b_dtype b1) ->
  dt_native (e_me e1) (a_dtype a1) = true -> dt_native (e_me e2) (a_dtype a2) = true ->
  n = a_size a1 / b_nmemb b1 -> n = a_size a2 / b_nmemb b1 -> zlen vs = n * b_nmemb b1 ->
  holds um1 (elem_addr a1) (itemsize (e_me e1) (a_dtype a1)) 0 vs ->
  mapped um2 (elem_addr a2) (itemsize (e_me e2) (a_dtype a2)) 0 (zlen vs) ->
  elems_disjoint (elem_addr a2) (itemsize (e_me e2) (a_dtype a2)) 0 (zlen vs) ->
  ptr_at sizes p1 o -> ptr_at sizes p2 o -> o + n <= zsum sizes -> files_exist f (b_base b1) sizes ->
  exists f' b1' p1' um1' p2' um2' res,
    big_block_write e1 f b1 p1 a1 um1 = Ret (0, f', b1', p1', um1') /\
    big_block_read e2 f' b2 p2 a2 um2 = Ret (0, p2', um2') /\
    wrote um2 um2' (elem_addr a2) (itemsize (e_me e2) (a_dtype a2)) 0 res /\
    map (value (e_me e2)) res = map (value (e_me e1)) vs.
Proof. exact portable. Qed.

(* Written on a little-endian machine, read on a big-endian one. *)
Example C20_example : exists f' b1' p1' um1' p2' um2' res,
    big_block_write ex_e ex_f ex_b ex_p ex_a ex_um = Ret (0, f', b1', p1', um1') /\
    big_block_read ex_be f' ex_b ex_p (mkArray 1000 (lit ">i4") [6] [-8] 6) ex_um = Ret (0, p2', um2') /\
    wrote ex_um um2' (elem_addr ex_a2) 4 0 res /\
    map (value BE) res = map (value LE) ex_vs.
Proof.
  apply (C20_portable ex_e ex_be ex_sizes 8 ex_f ex_b ex_b ex_p ex_p ex_a (mkArray 1000 (lit ">i4") [6] [-8] 6) ex_um ex_um 1 3 ex_vs); ex_tac.
Qed.

(* ------------------------------------------------------------------ C21 *)
(* True for arrays in the machine's byte order. *)
Theorem C21_source_unchanged_partial : forall e sizes w a f b p um o vs outs n,
  wblock e b sizes w -> w <= e_chunk e -> w < 2 ^ 31 ->
  array_ok a -> dt_ok (e_me e) (a_dtype a) ->
  convertible (e_me e) (a_dtype a) (b_dtype b) ->
  n = a_size a / b_nmemb b -> zlen vs = n * b_nmemb b ->
  holds um (elem_addr a) (itemsize (e_me e) (a_dtype a)) 0 vs ->
  dt_native (e_me e) (a_dtype a) = true ->
  Forall2 (converts (e_me e) (a_dtype a) (b_dtype b)) vs outs ->
  ptr_at sizes p o -> o + n <= zsum sizes -> files_exist f (b_base b) sizes ->
  exists f' b' p', big_block_write e f b p a um = Ret (0, f', b', p', um).
Proof. exact write_native_source. Qed.

(* A source of the other byte order is left with every element reversed. *)
Theorem C21_source_reversed : forall e sizes w a f b p um o vs outs n,
  wblock e b sizes w -> w <= e_chunk e -> w < 2 ^ 31 ->
  array_ok a -> dt_ok (e_me e) (a_dtype a) ->
  convertible (e_me e) (a_dtype a) (b_dtype b) ->
  n = a_size a / b_nmemb b -> zlen vs = n * b_nmemb b ->
  holds um (elem_addr a) (itemsize (e_me e) (a_dtype a)) 0 vs ->
  dt_native (e_me e) (a_dtype a) = false ->
  elems_disjoint (elem_addr a) (itemsize (e_me e) (a_dtype a)) 0 (zlen vs) ->
  Forall2 (converts (e_me e) (a_dtype a) (b_dtype b)) vs outs ->
  ptr_at sizes p o -> o + n <= zsum sizes -> files_exist f (b_base b) sizes ->
  exists f' b' p' um', big_block_write e f b p a um = Ret (0, f', b', p', um') /\
    wrote um um' (elem_addr a) (itemsize (e_me e) (a_dtype a)) 0 (map (@rev byte) vs).
Proof. exact write_foreign_source. Qed.

Theorem C21_source_unchanged_refuted : exists e sizes w a f b p um o f' b' p' um' x,
  wblock e b sizes w /\ array_ok a /\ dt_ok (e_me e) (a_dtype a) /\ ptr_at sizes p o /\
  big_block_write e f b p a um = Ret (0, f', b', p', um') /\ um' x <> um x.
Proof.
  assert (H : match big_block_write ex_e ex_f ex_b ex_p (mkArray 100 (lit ">i4") [3; 2] [16; 4] 6) ex_um with
              | Ret (rc, _, _, _, m) => rc = 0 /\ m 100 <> ex_um 100 | _ => False end) by (vm_compute; split; [reflexivity|discriminate]).
  destruct (big_block_write ex_e ex_f ex_b ex_p (mkArray 100 (lit ">i4") [3; 2] [16; 4] 6) ex_um)
    as [[[[[rc f'] b'] p'] um']| |] eqn:E; try (exfalso; exact H).
  destruct H as [-> H].
  exists ex_e, ex_sizes, 8, (mkArray 100 (lit ">i4") [3; 2] [16; 4] 6), ex_f, ex_b, ex_p, ex_um, 1, f', b', p', um', 100.
  split; [ex_tac|].
  split; [ex_tac|].
  split; [ex_tac|].
  split; [ex_tac|].
  split; [exact E|]. exact H.
Qed.

Example C21_example : dt_native LE (a_dtype ex_a) = true /\ holds ex_um (elem_addr ex_a) 4 0 ex_vs /\
  exists f' b' p', big_block_write ex_e ex_f ex_b ex_p ex_a ex_um = Ret (0, f', b', p', ex_um).
Proof.
  split; [reflexivity|]. split; [apply ex_holds|].
  apply (C21_source_unchanged_partial ex_e ex_sizes 8 ex_a ex_f ex_b ex_p ex_um 1 ex_vs ex_outs 3); ex_tac.
Qed.

(* ------------------------------------------------------------------ C24 *)
(* Which pairs convert: the code's table is exactly the promised one. *)
Theorem C24_table : forall me sd dd, convertible me sd dd <-> has_conversion (suffix sd) (suffix dd).
Proof. exact convertible_spec. Qed.

Theorem C24_write_unsupported : forall e sizes w a f b p um o vs n,
  wblock e b sizes w -> w <= e_chunk e -> w < 2 ^ 31 ->
  array_ok a -> dt_ok (e_me e) (a_dtype a) ->
  ~ has_conversion (suffix (a_dtype a)) (suffix (b_dtype b)) ->
  n = a_size a / b_nmemb b -> 0 < n -> zlen vs = n * b_nmemb b ->
  holds um (elem_addr a) (itemsize (e_me e) (a_dtype a)) 0 vs ->
  (dt_native (e_me e) (a_dtype a) = false ->
     elems_disjoint (elem_addr a) (itemsize (e_me e) (a_dtype a)) 0 (zlen vs)) ->
  ptr_at sizes p o -> o + n <= zsum sizes ->
  exists um', big_block_write e f b p a um = Ret (-1, f, set_bdirty b true, p, um').
Proof.
  intros e sizes w a f b p um o vs n H1 H2 H3 H4 H5 H6.
  exact (write_unsupported e sizes w a f b p um o vs n H1 H2 H3 H4 H5
           (fun H => H6 (proj1 (convertible_spec _ _ _) H))).
Qed.

Theorem C24_read_unsupported : forall e sizes w a f b p um o n,
  wblock e b sizes w -> w < 2 ^ 31 -> 0 <= e_chunk e ->
  array_ok a -> dt_ok (e_me e) (a_dtype a) ->
  ~ has_conversion (suffix (b_dtype b)) (suffix (a_dtype a)) ->
  n = a_size a / b_nmemb b -> 0 < n ->
  ptr_at sizes p o -> o + n <= zsum sizes ->
  big_block_read e f b p a um = Ret (-1, p, um).
Proof.
  intros e sizes w a f b p um o n H1 H2 H3 H4 H5 H6.
  exact (read_unsupported e sizes w a f b p um o n H1 H2 H3 H4 H5
           (fun H => H6 (proj1 (convertible_spec _ _ _) H))).
Qed.

Example C24_example : ~ has_conversion (lit "i4") (lit "c8") /\ ~ has_conversion (lit "i2") (lit "i4") /\
  ~ has_conversion (lit "f4") (lit "b1") /\
  big_block_read ex_e ex_f1 ex_b ex_p (mkArray 100 (lit "<c8") [3; 2] [16; 8] 6) ex_um = Ret (-1, ex_p, ex_um).
Proof.
  assert (H : ~ has_conversion (lit "i4") (lit "c8")).
  { unfold has_conversion. simpl. intuition discriminate. }
  split; [exact H|]. split; [unfold has_conversion; simpl; intuition discriminate|].
  split; [unfold has_conversion; simpl; intuition discriminate|].
  apply (C24_read_unsupported ex_e ex_sizes 8 _ _ _ _ _ 1 3); first [exact H|ex_tac].
Qed.

Definition all_IO := (@C01_seek, @C01_pointer_inside, @C02_seek_rel, @C02_eof, @C03_read_after_write, @C03_read_after_write_converting, @C04_write_frame, @C05_write_out_of_range, @C05_read_out_of_range, @C06_write_buffer_size, @C06_read_buffer_size, @C07_read_terminates, @C07_write_terminates_partial, @C07_write_never_ends, @C07_termination_refuted, @C11_traversal, @C11_read_into_strided, @C11_failed_read_frame, @C20_portable, @C21_source_unchanged_partial, @C21_source_reversed, @C21_source_unchanged_refuted, @C24_table, @C24_write_unsupported, @C24_read_unsupported).
Print Assumptions all_IO.
