(* Properties of element conversions, of the automatic partition and of
   reading into a new array (C12, C22, C23, C25, C37, C61). The meaning of the
   stored bits is in CastSpec.v, the memory and row vocabulary in Spec.v. *)
From Coq.Strings Require Import Byte String.
From Coq Require Import List ZArith Lia Bool.
From Verif Require Import Base BaseFacts Dtype Cast Array FS Fmt Attr Block Spec ConvFacts DtypeFacts Split CastSpec CastFacts MiscFacts Ex.
Import ListNotations.
Open Scope Z_scope.

(* ------------------------------------------------------------------ C12 *)
(* Reading n rows at start >= 0 into a new array (element type d, or the
   block's when none is given): the result is m by nmemb, m the number of
   those rows that exist, and holds exactly the stored values converted. *)
Theorem C12_read_simple_partial : forall e sizes w f b start n dtype es outs,
  let m := Z.min n (zsum sizes - start) in
  let d := match dtype with Some d => d | None => b_dtype b end in
  wblock e b sizes w -> w <= e_chunk e -> w < 2 ^ 31 ->
  0 <= start <= zsum sizes -> 0 <= n -> start + n < 2 ^ 63 ->
  dt_ok (e_me e) (dtype_normalize (e_me e) d) -> convertible (e_me e) (b_dtype b) (dtype_normalize (e_me e) d) ->
  zlen es = m * b_nmemb b ->
  Forall (fun v => length v = Z.to_nat (itemsize (e_me e) (b_dtype b))) es ->
  (forall j v, nth_error (rows_of (b_nmemb b) m es) j = Some v -> stored_row f (b_base b) sizes w (start + Z.of_nat j) = Some v) ->
  Forall2 (converts (e_me e) (b_dtype b) (dtype_normalize (e_me e) d)) es outs ->
  exists a um', big_block_read_simple e f b start n dtype = Ret (0, Some (a, um')) /\
    a_data a = 0 /\ a_dtype a = dtype_normalize (e_me e) d /\ a_dims a = [m; b_nmemb b] /\
    holds um' (fun k => k * itemsize (e_me e) d) (itemsize (e_me e) d) 0 outs.
Proof.
  intros e sizes w f b start n [d|] es outs; exact (read_simple_spec e sizes w f b start n _ es outs).
Qed.

(* For a negative start the call fails unless exactly the rows up to the end
   are asked for, even when every row of the block has been written. *)
Theorem C12_read_simple_refuted : forall e sizes w f b start n dtype,
  wblock e b sizes w -> w < 2 ^ 31 ->
  - zsum sizes <= start < 0 -> 0 < n -> n < 2 ^ 62 -> zsum sizes < 2 ^ 62 -> n <> - start ->
  dt_ok (e_me e) (dtype_normalize (e_me e) (match dtype with Some d => d | None => b_dtype b end)) ->
  big_block_read_simple e f b start n dtype = Ret (-1, None).
Proof.
  intros e sizes w f b start n [d|]; exact (read_simple_negative e sizes w f b start n _).
Qed.

(* Rows 2 and 3 of ex_f1: asking for 5 rows at row 2 gets only what exists. *)
Definition ex_f2 : fs :=
  [([lit "d"], Dir); ([lit "d"; lit "blk"], Dir);
   ([lit "d"; lit "blk"; lit "000000"], File []);
   ([lit "d"; lit "blk"; lit "000001"], File []);
   ([lit "d"; lit "blk"; lit "000002"], File (lit "abcdefghijklmnopqrstuvwx"))].
Definition ex_es : list bytes := [lit "ijkl"; lit "mnop"; lit "qrst"; lit "uvwx"].
Example C12_example : exists a um', big_block_read_simple ex_e ex_f2 ex_b 3 100 (Some (lit "=i4")) = Ret (0, Some (a, um')) /\
  a_dims a = [2; 2] /\ load um' 4 4 = Some (lit "ponm").
Proof.
  destruct (C12_read_simple_partial ex_e ex_sizes 8 ex_f2 ex_b 3 100 (Some (lit "=i4")) ex_es (map (@rev byte) ex_es))
    as (a & um' & E & _ & _ & D & H); try ex_tac.
  - intros j v H. destruct j as [|[|j]]; [injection H as <-; reflexivity|injection H as <-; reflexivity|destruct j; discriminate H].
  - exists a, um'. split; [exact E|]. split; [exact D|]. exact (H 1%nat _ eq_refl).
Qed.
Example C12_negative_example : big_block_read_simple ex_e ex_f2 ex_b (-2) 1 None = Ret (-1, None) /\
  exists a um', big_block_read_simple ex_e ex_f2 ex_b (-2) 2 None = Ret (0, Some (a, um')) /\ load um' 0 4 = Some (lit "ijkl").
Proof.
  split.
  - apply (C12_read_simple_refuted ex_e ex_sizes 8); ex_tac.
  - eexists _, _. split; [vm_compute; reflexivity|]. vm_compute. reflexivity.
Qed.

(* ------------------------------------------------------------------ C22 *)
(* Every pair of integer types converts, except that only booleans become
   booleans; the result is the value of the destination type congruent to the
   source modulo 2^width. *)
Theorem C22_int_cast : forall me sd ws ss dd wd sg v,
  int_type sd ws ss -> int_type dd wd sg -> (suffix dd = lit "b1" -> suffix sd = lit "b1") ->
  length v = Z.to_nat (ws / 8) ->
  exists r, converts me sd dd v r /\ length r = Z.to_nat (wd / 8) /\ in_type wd sg (int_value dd wd sg r) /\
    int_value dd wd sg r mod 2 ^ wd = int_value sd ws ss v mod 2 ^ wd.
Proof. exact int_convert. Qed.
(* There is only one such value. *)
Theorem C22_unique : forall wd sg x y, 0 < wd -> in_type wd sg x -> in_type wd sg y -> x mod 2 ^ wd = y mod 2 ^ wd -> x = y.
Proof. exact in_type_unique. Qed.
Theorem C22_value_kept : forall me sd ws ss dd wd sg v,
  int_type sd ws ss -> int_type dd wd sg -> (suffix dd = lit "b1" -> suffix sd = lit "b1") ->
  length v = Z.to_nat (ws / 8) -> in_type wd sg (int_value sd ws ss v) ->
  exists r, converts me sd dd v r /\ length r = Z.to_nat (wd / 8) /\ int_value dd wd sg r = int_value sd ws ss v.
Proof. exact int_convert_keeps. Qed.
Theorem C22_round_trip : forall me sd ws ss dd wd sg v,
  int_type sd ws ss -> int_type dd wd sg -> suffix dd <> lit "b1" -> suffix sd <> lit "b1" ->
  length v = Z.to_nat (ws / 8) -> ws <= wd ->
  exists r, converts me sd dd v r /\ converts me dd sd r v.
Proof. exact int_round_trip. Qed.

Example C22_example : int_type (lit "<i4") 32 true /\ int_type (lit ">u8") 64 false /\
  int_value (lit "<i4") 32 true (map z2b [254; 255; 255; 255]) = -2 /\
  int_value (lit ">u8") 64 false (map z2b [255; 255; 255; 255; 255; 255; 255; 254]) = 2 ^ 64 - 2 /\
  converts LE (lit "<i4") (lit ">u8") (map z2b [254; 255; 255; 255]) (map z2b [255; 255; 255; 255; 255; 255; 255; 254]).
Proof.
  split; [apply it_i4; auto|]. split; [apply it_u8; auto|]. split; [reflexivity|]. split; reflexivity.
Qed.

(* ------------------------------------------------------------------ C23 *)
(* f4 to f8 and back: sign, class and value survive the first step; the second
   returns the same bits, a NaN becoming quiet. *)
Theorem C23_f4_f8_f4 : forall me sd dd v, float_type sd 23 8 -> float_type dd 52 11 -> length v = 4%nat ->
  exists r v', converts me sd dd v r /\ length r = 8%nat /\ converts me dd sd r v' /\ length v' = 4%nat /\
    let b := elem_bits sd v in let b' := elem_bits dd r in
    fl_neg 52 11 b' = fl_neg 23 8 b /\ is_nan 52 11 b' = is_nan 23 8 b /\ is_inf 52 11 b' = is_inf 23 8 b /\
    (fl_finite 23 8 b -> fl_finite 52 11 b' /\ same_scaled (fl_mag 52 11 b') (fl_unit 52 11) (fl_mag 23 8 b) (fl_unit 23 8)) /\
    elem_bits sd v' = (if is_nan 23 8 b then Z.lor b (2 ^ 22) else b).
Proof. exact f4_f8. Qed.
Theorem C23_int_f8_int : forall me sd sg dd v, int_type sd 32 sg -> float_type dd 52 11 -> length v = 4%nat ->
  exists r, converts me sd dd v r /\ length r = 8%nat /\ converts me dd sd r v /\
    fl_finite 52 11 (elem_bits dd r) /\ same_scaled (fl_signed 52 11 (elem_bits dd r)) (fl_unit 52 11) (int_value sd 32 sg v) 0.
Proof. exact int_f8_int. Qed.

(* 1.5f = 0x3fc00000 and the smallest denormal *)
Example C23_example :
  float_type (lit "<f4") 23 8 /\ float_type (lit ">f8") 52 11 /\ fl_finite 23 8 (elem_bits (lit "<f4") (map z2b [0; 0; 192; 63])) /\
  converts LE (lit "<f4") (lit ">f8") (map z2b [0; 0; 192; 63]) (map z2b [63; 248; 0; 0; 0; 0; 0; 0]) /\
  converts LE (lit "<f4") (lit "<f8") (map z2b [1; 0; 0; 0]) (map z2b [0; 0; 0; 0; 0; 0; 160; 54]) /\
  converts LE (lit "<i4") (lit "<f8") (map z2b [254; 255; 255; 255]) (map z2b [0; 0; 0; 0; 0; 0; 0; 192]).
Proof.
  split; [apply ft_f4; auto|]. split; [apply ft_f8; auto|]. split; [vm_compute; ex_neg|]. repeat split; vm_compute; reflexivity.
Qed.

(* ------------------------------------------------------------------ C61 *)
Theorem C61_f8_f4_rounds : forall me sd dd v, float_type sd 52 11 -> float_type dd 23 8 -> length v = 8%nat -> fl_finite 52 11 (elem_bits sd v) ->
  exists r, converts me sd dd v r /\ length r = 4%nat /\
    rounded 23 8 (fl_signed 52 11 (elem_bits sd v)) (fl_unit 52 11) (elem_bits dd r).
Proof. exact f8_f4. Qed.
Theorem C61_int_rounds : forall me sd ws sg dd mw ew v, int_type sd ws sg -> float_type dd mw ew -> length v = Z.to_nat (ws / 8) ->
  exists r, converts me sd dd v r /\ length r = Z.to_nat ((mw + ew + 1) / 8) /\
    rounded mw ew (int_value sd ws sg v) 0 (elem_bits dd r).
Proof. exact int_float. Qed.

(* 0.1 to f4; 2^24 + 1 to f4 *)
Example C61_example : fl_finite 52 11 (elem_bits (lit "<f8") (map z2b [154; 153; 153; 153; 153; 153; 185; 63])) /\
  converts LE (lit "<f8") (lit "<f4") (map z2b [154; 153; 153; 153; 153; 153; 185; 63]) (map z2b [205; 204; 204; 61]) /\
  converts LE (lit "<i4") (lit "<f4") (map z2b [1; 0; 0; 1]) (map z2b [0; 0; 128; 75]).
Proof. split; [vm_compute; ex_neg|]. split; vm_compute; reflexivity. Qed.

(* ------------------------------------------------------------------ C25 *)
(* Same byte order on both sides: the parts convert independently and stay in
   place. *)
Theorem C25_complex_partial : forall me sd ps ks dd pd kd v,
  complex_type sd ps ks -> complex_type dd pd kd -> length v = (ks + ks)%nat -> firstn 1 sd = firstn 1 dd ->
  exists x y r, converts me ps pd (real_part v) x /\ converts me ps pd (imag_part v) y /\
    converts me sd dd v r /\ real_part r = x /\ imag_part r = y.
Proof.
  intros me sd ps ks dd pd kd v H1 H2 H3 H4. destruct (complex_parts me sd ps ks dd pd kd v H1 H2 H3) as (x & y & Cx & Cy & r & C & A & _).
  exists x, y, r. split; [exact Cx|]. split; [exact Cy|]. split; [exact C|]. exact (A H4).
Qed.
(* Different byte orders: every number comes out with real and imaginary part
   exchanged. *)
Theorem C25_complex_exchanged : forall me sd ps ks dd pd kd v,
  complex_type sd ps ks -> complex_type dd pd kd -> length v = (ks + ks)%nat -> firstn 1 sd <> firstn 1 dd ->
  exists x y r, converts me ps pd (real_part v) x /\ converts me ps pd (imag_part v) y /\
    converts me sd dd v r /\ real_part r = y /\ imag_part r = x.
Proof.
  intros me sd ps ks dd pd kd v H1 H2 H3 H4. destruct (complex_parts me sd ps ks dd pd kd v H1 H2 H3) as (x & y & Cx & Cy & r & C & _ & A).
  exists x, y, r. split; [exact Cx|]. split; [exact Cy|]. split; [exact C|]. exact (A H4).
Qed.
(* Hence a big-endian block does not return what was stored through a
   little-endian array: 1 + 2i is read by a big-endian program as 2 + 1i. *)
Theorem C25_complex_refuted : exists v x y r,
  converts LE (lit "<f4") (lit ">f4") (real_part v) x /\ converts LE (lit "<f4") (lit ">f4") (imag_part v) y /\
  converts LE (lit "<c8") (lit ">c8") v r /\ ~ (real_part r = x /\ imag_part r = y).
Proof.
  exists (map z2b [0; 0; 128; 63; 0; 0; 0; 64]). do 3 eexists. split; [vm_compute; reflexivity|]. split; [vm_compute; reflexivity|]. split; [vm_compute; reflexivity|].
  intros [H _]. discriminate H.
Qed.
Example C25_example : complex_type (lit "<c8") (lit "<f4") 4 /\ complex_type (lit "<c16") (lit "<f8") 8 /\
  exists r, converts LE (lit "<c8") (lit "<c16") (map z2b [0; 0; 128; 63; 0; 0; 0; 64]) r /\
    real_part r = map z2b [0; 0; 0; 0; 0; 0; 240; 63] /\ imag_part r = map z2b [0; 0; 0; 0; 0; 0; 0; 64].
Proof.
  split; [apply ct_c8; auto|]. split; [apply ct_c16; auto|]. eexists. split; [vm_compute; reflexivity|]. split; reflexivity.
Qed.

(* ------------------------------------------------------------------ C37 *)
(* The partition used by the MPI library, as long as size * n fits in 64
   bits; and the one of the Python binding, as long as it fits in 63. *)
Theorem C37_even_partial : forall size n, 0 < n -> 0 <= size -> size * n < 2 ^ 64 ->
  zlen (even_split size n) = n /\ zsum (even_split size n) = size /\
  Forall (fun s => s = size / n \/ s = size / n + 1) (even_split size n).
Proof. exact split_even. Qed.
Theorem C37_python_even_partial : forall size n, 0 < n -> 0 <= size -> size * n < 2 ^ 63 ->
  zlen (np_split size n) = n /\ zsum (np_split size n) = size /\
  Forall (fun s => s = size / n \/ s = size / n + 1) (np_split size n).
Proof. exact np_split_even. Qed.
(* Beyond that the products wrap: 2^62 rows over 4 files lose every row. *)
Theorem C37_even_refuted : exists size n, 0 < n < 2 ^ 31 /\ 0 <= size < 2 ^ 63 /\ zsum (even_split size n) <> size.
Proof. exists (2 ^ 62), 4. split; [split; reflexivity|]. split; [split; [ex_neg|reflexivity]|]. vm_compute. ex_neg. Qed.
Example C37_example : even_split 10 4 = [2; 3; 2; 3] /\ np_split 10 4 = [2; 3; 2; 3] /\ even_split 2 4 = [0; 1; 0; 1].
Proof. repeat split. Qed.

Definition all_Cast := (@C12_read_simple_partial, @C12_read_simple_refuted, @C22_int_cast, @C22_unique, @C22_value_kept, @C22_round_trip,
  @C23_f4_f8_f4, @C23_int_f8_int, @C61_f8_f4_rounds, @C61_int_rounds, @C25_complex_partial, @C25_complex_exchanged, @C25_complex_refuted,
  @C37_even_partial, @C37_python_even_partial, @C37_even_refuted).
Print Assumptions all_Cast.
