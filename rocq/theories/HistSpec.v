(* Histories of operations on one block, and the table they should implement. *)
From Coq.Strings Require Import Byte String.
From Coq Require Import List ZArith Bool.
From Verif Require Import Base Dtype Cast Array FS Fmt Attr Block Spec AttrSpec OpenSpec.
Import ListNotations.
Open Scope Z_scope.
Local Open Scope out_scope.

Inductive hop : Type :=
| HWrite (o : Z) (a : array) (um : mem)   (* seek to row o, write the array *)
| HRead (o : Z) (a : array) (um : mem)    (* seek to row o, read into the array *)
| HGrow (gs : list Z)
| HFlush
| HReopen.                                (* close, then open *)

(* Return code, and the caller's memory after a transfer. *)
Definition hres : Type := (Z * option mem)%type.

(* The code. *)
Definition hstep (e : env) (st : fs * block) (op : hop) : out (hres * (fs * block)) :=
  let '(f, b) := st in
  match op with
  | HWrite o a um =>
      '(rc, p) <- big_block_seek b (mkPtr 0 0 0) o ;;
      if negb (rc =? 0) then Ret ((rc, Some um), (f, b)) else
      '(rc2, f', b', _, um') <- big_block_write e f b p a um ;;
      Ret ((rc2, Some um'), (f', b'))
  | HRead o a um =>
      '(rc, p) <- big_block_seek b (mkPtr 0 0 0) o ;;
      if negb (rc =? 0) then Ret ((rc, Some um), (f, b)) else
      '(rc2, _, um') <- big_block_read e f b p a um ;;
      Ret ((rc2, Some um'), (f, b))
  | HGrow gs =>
      '(rc, f', b') <- big_block_grow f b (zlen gs) gs ;; Ret ((rc, None), (f', b'))
  | HFlush => '(rc, f', b') <- big_block_flush e f b ;; Ret ((rc, None), (f', b'))
  | HReopen =>
      '(rc, f') <- big_block_close e f b ;;
      r <- big_block_open e f' (b_base b) ;;
      match r with
      | None => Ret ((-1, None), (f', b))
      | Some b' => Ret ((rc, None), (f', b'))
      end
  end.
Fixpoint hrun (e : env) (st : fs * block) (os : list hop) : out (list hres * (fs * block)) :=
  match os with
  | [] => Ret ([], st)
  | o :: r =>
      '(x, st1) <- hstep e st o ;;
      '(xs, st2) <- hrun e st1 r ;;
      Ret (x :: xs, st2)
  end.

(* ------------------------------------------------------------------ *)
(* The specification: a table of rows. *)
Record table : Type := mkTab {
  t_sizes : list Z;              (* rows per physical file *)
  t_row : Z -> option bytes;     (* the latest value written to each row *)
  t_sum : nat -> Z               (* sum of all bytes ever written to each file *)
}.
Definition t_size (t : table) : Z := zsum (t_sizes t).

(* An empty table. *)
Definition new_table (sizes : list Z) : table := mkTab sizes (fun _ => None) (fun _ => 0).

(* Sum of the bytes of those of the rows o, o+1, ... that lie in file i. *)
Fixpoint bytes_into (sizes : list Z) (i : nat) (o : Z) (rows : list bytes) : Z :=
  match rows with
  | [] => 0
  | v :: r =>
      match home sizes o with
      | Some (k, _) => if Nat.eqb k i then byte_sum v else 0
      | None => 0
      end + bytes_into sizes i (o + 1) r
  end.

(* Rows o, o+1, ... get new values. *)
Definition with_rows (t : table) (o : Z) (rows : list bytes) : table :=
  mkTab (t_sizes t)
    (fun r => if (o <=? r) && (r <? o + zlen rows) then nth_error rows (Z.to_nat (r - o)) else t_row t r)
    (fun i => t_sum t i + bytes_into (t_sizes t) i o rows).

(* What a read shows for row r: the latest value written to it, or zeros if
   only a later row of the same physical file has been written. *)
Definition shows (w : Z) (t : table) (r : Z) (v : bytes) : Prop :=
  t_row t r = Some v \/
  (t_row t r = None /\ v = repeat x00 (Z.to_nat w) /\
   exists r2, r < r2 /\ same_file (t_sizes t) r r2 /\ t_row t r2 <> None).
(* Neither row r nor any later row of its physical file has been written. *)
Definition absent (t : table) (r : Z) : Prop :=
  t_row t r = None /\ forall r2, r < r2 -> same_file (t_sizes t) r r2 -> t_row t r2 = None.

Section Table.
  (* machine, element type and elements per row of the block *)
  Variables (me : endian) (dt : bytes) (nmemb : Z).
  Let w := itemsize me dt * nmemb.
  Definition nrows (a : array) : Z := a_size a / nmemb.

  (* vs are the elements of the array, outs their values in the block's type *)
  Definition source (a : array) (um : mem) (vs outs : list bytes) : Prop :=
    zlen vs = nrows a * nmemb /\
    holds um (elem_addr a) (itemsize me (a_dtype a)) 0 vs /\
    Forall2 (converts me (a_dtype a) dt) vs outs.

  Inductive hspec (t : table) : hop -> hres -> table -> Prop :=
  | sp_write o a um um' vs outs : o + nrows a <= t_size t -> source a um vs outs ->
      (* elements of foreign byte order are left reversed in the caller's array *)
      (if dt_native me (a_dtype a) then um' = um
       else wrote um um' (elem_addr a) (itemsize me (a_dtype a)) 0 (map (@rev byte) vs)) ->
      hspec t (HWrite o a um) (0, Some um') (with_rows t o (rows_of nmemb (nrows a) outs))
  | sp_write_range o a um : t_size t < o + nrows a ->
      hspec t (HWrite o a um) (-1, Some um) t
  | sp_read o a um rc um' :
      (* past the end *)
      (t_size t < o + nrows a -> rc = -1 /\ um' = um) ->
      (* every row can be shown: the array holds the converted elements and
         nothing else changes *)
      (forall es outs, o + nrows a <= t_size t -> zlen es = nrows a * nmemb ->
         Forall (fun v => length v = Z.to_nat (itemsize me dt)) es ->
         (forall j v, nth_error (rows_of nmemb (nrows a) es) j = Some v -> shows w t (o + Z.of_nat j) v) ->
         Forall2 (converts me dt (a_dtype a)) es outs ->
         rc = 0 /\ wrote um um' (elem_addr a) (itemsize me (a_dtype a)) 0 outs) ->
      (* some row has never been written *)
      (forall r, o + nrows a <= t_size t -> o <= r < o + nrows a -> absent t r -> rc = -1) ->
      (* in any case only the array is written, and success fills it *)
      (rc = -1 \/ rc = 0 /\ exists outs, zlen outs = nrows a * nmemb /\
         wrote um um' (elem_addr a) (itemsize me (a_dtype a)) 0 outs) ->
      (forall x, ~ in_elems (elem_addr a) (itemsize me (a_dtype a)) 0 (nrows a * nmemb) x -> um' x = um x) ->
      hspec t (HRead o a um) (rc, Some um') t
  | sp_grow gs :
      hspec t (HGrow gs) (0, None) (mkTab (t_sizes t ++ gs) (t_row t) (t_sum t))
  | sp_flush : hspec t HFlush (0, None) t
  | sp_reopen : hspec t HReopen (0, None) t.

  Inductive hspecs : table -> list hop -> list hres -> table -> Prop :=
  | sps_nil t : hspecs t [] [] t
  | sps_cons t o x t1 os xs t2 : hspec t o x t1 -> hspecs t1 os xs t2 -> hspecs t (o :: os) (x :: xs) t2.

  (* Legal operations. Reads must use a conversion that is defined on every
     element (all but floating point to integer). *)
  Definition hop_ok (sizes : list Z) (op : hop) : Prop :=
    match op with
    | HWrite o a um =>
        0 <= o < 2 ^ 63 /\ a_size a < 2 ^ 63 /\ array_ok a /\ dt_ok me (a_dtype a) /\
        convertible me (a_dtype a) dt /\ (exists vs outs, source a um vs outs) /\
        (dt_native me (a_dtype a) = false ->
           elems_disjoint (elem_addr a) (itemsize me (a_dtype a)) 0 (nrows a * nmemb))
    | HRead o a um =>
        0 <= o < 2 ^ 63 /\ a_size a < 2 ^ 63 /\ array_ok a /\ dt_ok me (a_dtype a) /\
        convertible me dt (a_dtype a) /\
        (forall v, length v = Z.to_nat (itemsize me dt) -> exists r, converts me dt (a_dtype a) v r) /\
        mapped um (elem_addr a) (itemsize me (a_dtype a)) 0 (nrows a * nmemb) /\
        elems_disjoint (elem_addr a) (itemsize me (a_dtype a)) 0 (nrows a * nmemb)
    | HGrow gs => layout_ok (sizes ++ gs) /\ zlen (sizes ++ gs) <= 2 ^ 24
    | HFlush | HReopen => True
    end.
  Definition sizes_after (sizes : list Z) (op : hop) : list Z :=
    match op with HGrow gs => sizes ++ gs | _ => sizes end.
  Fixpoint history_ok (sizes : list Z) (os : list hop) : Prop :=
    match os with
    | [] => True
    | o :: r => hop_ok sizes o /\ history_ok (sizes_after sizes o) r
    end.

  (* No write of the history touches a row that was written before. *)
  Fixpoint written_once (t : table) (os : list hop) : Prop :=
    match os with
    | [] => True
    | o :: r =>
        match o with
        | HWrite p a _ =>
            p + nrows a <= t_size t -> forall q, p <= q < p + nrows a -> t_row t q = None
        | _ => True
        end /\ forall x t', hspec t o x t' -> written_once t' r
    end.

  (* The same calls, except that growing may cut the new rows into different
     files. *)
  Definition same_calls (o1 o2 : hop) : Prop :=
    match o1, o2 with
    | HGrow g1, HGrow g2 => zsum g1 = zsum g2
    | _, _ => o1 = o2
    end.
End Table.

(* utils/bigfile-ls.c:80-86: the checksum bigfile-ls -l prints *)
Definition ls_checksum (b : block) : Z :=
  reduce_sum (fold_left (fun s c => u32 (s + c)) (firstn (Z.to_nat (b_Nfile b)) (b_fchecksum b)) 0).

(* System V checksum of a sequence of bytes (sum -s). *)
Definition sysv_checksum (data : bytes) : Z :=
  let s := byte_sum data in
  let r := s mod 2 ^ 16 + (s mod 2 ^ 32) / 2 ^ 16 in
  r mod 2 ^ 16 + r / 2 ^ 16.

(* Everything in the data files of a block, in order. *)
Definition all_data (f : fs) (base : bytes) (sizes : list Z) : bytes :=
  flat_map (fun i => match data_file f base i with Some c => c | None => [] end) (seq 0 (length sizes)).

(* The circumstances in which a block is created: a proper name in an existing
   directory without old-style attributes; a type the header can hold; rows
   that fit the transfer buffer. *)
Record new_block (e : env) (f : fs) (base d : bytes) (nmemb : Z) (sizes : list Z) : Prop := {
  nb_name : block_name base;
  nb_dir : block_dir f base;
  nb_layout : layout_ok sizes;
  nb_files : zlen sizes <= 2 ^ 24;
  nb_attr1 : fs_get f (attr1_path base) = None;
  nb_nmemb : 0 < nmemb < 2 ^ 31;
  nb_type : header_type (dtype_normalize (e_me e) d);
  nb_dt : dt_ok (e_me e) (dtype_normalize (e_me e) d);
  nb_chunk : itemsize (e_me e) (dtype_normalize (e_me e) d) * nmemb <= e_chunk e;
  nb_width : itemsize (e_me e) (dtype_normalize (e_me e) d) * nmemb < 2 ^ 31
}.
(* Create a block and run a history on it. *)
Definition create_and_run (e : env) (f : fs) (base d : bytes) (nmemb : Z) (sizes : list Z) (os : list hop)
    : out (option (list hres * (fs * block))) :=
  '(f1, ob) <- big_block_create e f base (Some d) nmemb (zlen sizes) sizes ;;
  match ob with
  | None => Ret None
  | Some b => r <- hrun e (f1, b) os ;; Ret (Some r)
  end.
