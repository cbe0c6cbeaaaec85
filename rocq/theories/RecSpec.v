(* Record types, and the table of records that record I/O should implement. *)
From Coq.Strings Require Import Byte String.
From Coq Require Import List ZArith Bool.
From Verif Require Import Base Dtype Cast Array FS Fmt Attr Block File Record FileSpec Spec AttrSpec OpenSpec HistSpec.
Import ListNotations.
Open Scope Z_scope.
Local Open Scope out_scope.

(* bytes a field takes in a record, before and after completion *)
Definition width (me : endian) (fd : rfield) : Z := itemsize me (rf_dtype fd) * rf_nmemb fd.
Definition fwidth (fd : rfield) : Z := rf_elsize fd * rf_nmemb fd.
Definition field_ok (me : endian) (fd : rfield) : Prop :=
  rf_name fd <> None /\ (length (rf_dtype fd) < 8)%nat /\ 0 <= itemsize me (rf_dtype fd) /\ 0 <= rf_nmemb fd.

(* The fields follow each other without gaps and fill the record. *)
Record packed (rt : rtype) : Prop := {
  pk_total : rt_itemsize rt = zsum (map (fun fd => rf_elsize fd * rf_nmemb fd) (rt_fields rt));
  pk_nonneg : Forall (fun fd => 0 <= rf_elsize fd * rf_nmemb fd) (rt_fields rt);
  pk_offset : forall k fd, nth_error (rt_fields rt) k = Some fd ->
    rf_offset fd = zsum (map (fun fd => rf_elsize fd * rf_nmemb fd) (firstn k (rt_fields rt)))
}.

(* Address of field fd of record i of the records at buf. *)
Definition slot (rt : rtype) (buf i : Z) (fd : rfield) : Z := buf + i * rt_itemsize rt + rf_offset fd.
(* The bytes of a field in a record. *)
Definition field_of (fd : rfield) (v : bytes) : bytes :=
  firstn (Z.to_nat (fwidth fd)) (skipn (Z.to_nat (rf_offset fd)) v).

(* The n records at buf. *)
Definition recs_at (rt : rtype) (m : mem) (buf n : Z) (recs : list bytes) : Prop :=
  zlen recs = n /\
  forall j v, nth_error recs j = Some v ->
    load m (buf + Z.of_nat j * rt_itemsize rt) (Z.to_nat (rt_itemsize rt)) = Some v.

(* ------------------------------------------------------------------ *)
(* Operations on the records of a file. *)
Inductive rop : Type :=
| RWrite (o n buf : Z) (um : mem)
| RRead (o n buf : Z) (um : mem)
| RAppend (gs : list Z).

Definition rstep (e : env) (bf : bytes) (rt : rtype) (f : fs) (op : rop) : out (hres * fs) :=
  match op with
  | RWrite o n buf um => '(rc, (f', um')) <- write_records e f bf rt o n buf um ;; Ret ((rc, Some um'), f')
  | RRead o n buf um => '(rc, (f', um')) <- read_records e f bf rt o n buf um ;; Ret ((rc, Some um'), f')
  | RAppend gs => '(rc, f') <- create_records e f bf rt false (zlen gs) gs ;; Ret ((rc, None), f')
  end.
Fixpoint rrun (e : env) (bf : bytes) (rt : rtype) (f : fs) (os : list rop) : out (list hres * fs) :=
  match os with
  | [] => Ret ([], f)
  | o :: r =>
      '(x, f1) <- rstep e bf rt f o ;;
      '(xs, f2) <- rrun e bf rt f1 r ;;
      Ret (x :: xs, f2)
  end.

(* The caller's memory after a write: fields of foreign byte order are left
   with every element reversed; nothing else changes. *)
Definition left_by_write (me : endian) (rt : rtype) (um um' : mem) (buf n : Z) : Prop :=
  (forall x, ~ (buf <= x < buf + n * rt_itemsize rt) -> um' x = um x) /\
  forall k fd j v, nth_error (rt_fields rt) k = Some fd -> 0 <= j < n ->
    load um (slot rt buf j fd) (Z.to_nat (fwidth fd)) = Some v ->
    load um' (slot rt buf j fd) (Z.to_nat (fwidth fd)) =
      Some (if dt_native me (dtype_normalize me (rf_dtype fd)) then v
            else concat (map (@rev byte) (group (Z.to_nat (rf_elsize fd)) (Z.to_nat (rf_nmemb fd)) v))).

Section Records.
  Variables (me : endian) (rt : rtype).
  Let w := rt_itemsize rt.

  (* The rows of the table are whole records. *)
  Inductive rspec (t : table) : rop -> hres -> table -> Prop :=
  | rs_write o n buf um um' recs : o + n <= t_size t -> recs_at rt um buf n recs ->
      left_by_write me rt um um' buf n ->
      rspec t (RWrite o n buf um) (0, Some um') (with_rows t o recs)
  | rs_write_range o n buf um : t_size t < o + n -> rspec t (RWrite o n buf um) (-1, Some um) t
  | rs_read o n buf um rc um' :
      (t_size t < o + n -> rc = -1 /\ um' = um) ->
      (forall recs, o + n <= t_size t -> zlen recs = n ->
         (forall j v, nth_error recs j = Some v -> shows w t (o + Z.of_nat j) v) ->
         rc = 0 /\ recs_at rt um' buf n recs /\
         forall x, ~ (buf <= x < buf + n * rt_itemsize rt) -> um' x = um x) ->
      (forall r, o + n <= t_size t -> o <= r < o + n -> absent t r -> rc = -1) ->
      rspec t (RRead o n buf um) (rc, Some um') t
  | rs_append gs : rspec t (RAppend gs) (0, None) (mkTab (t_sizes t ++ gs) (t_row t) (t_sum t)).

  Inductive rspecs : table -> list rop -> list hres -> table -> Prop :=
  | rss_nil t : rspecs t [] [] t
  | rss_cons t o x t1 os xs t2 : rspec t o x t1 -> rspecs t1 os xs t2 -> rspecs t (o :: os) (x :: xs) t2.

  Definition counts_ok (n : Z) : Prop :=
    0 < n /\ forall fd, In fd (rt_fields rt) -> n * rf_nmemb fd < 2 ^ 63.
  Definition rop_ok (sizes : list Z) (op : rop) : Prop :=
    match op with
    | RWrite o n buf um => 0 <= o < 2 ^ 63 /\ counts_ok n /\ exists recs, recs_at rt um buf n recs
    | RRead o n buf um => 0 <= o < 2 ^ 63 /\ counts_ok n /\
        forall x, buf <= x < buf + n * rt_itemsize rt -> um x <> None
    | RAppend gs => layout_ok (sizes ++ gs) /\ zlen (sizes ++ gs) <= 2 ^ 24
    end.
  Definition rsizes_after (sizes : list Z) (op : rop) : list Z :=
    match op with RAppend gs => sizes ++ gs | _ => sizes end.
  Fixpoint rops_ok (sizes : list Z) (os : list rop) : Prop :=
    match os with
    | [] => True
    | o :: r => rop_ok sizes o /\ rops_ok (rsizes_after sizes o) r
    end.
End Records.

(* ------------------------------------------------------------------ *)
(* A field that can be stored: a proper block name, a type the header can
   hold, at least one element, and a row that fits the transfer buffer. *)
Record field_kind (e : env) (bf : bytes) (fd : rfield) (nm : bytes) : Prop := {
  fk_name : rf_name fd = Some nm;
  fk_block : block_name (path_join bf nm);
  fk_len : (length (rf_dtype fd) < 8)%nat;
  fk_type : header_type (dtype_normalize (e_me e) (rf_dtype fd));
  fk_elsize : rf_elsize fd = itemsize (e_me e) (rf_dtype fd);
  fk_pos : 0 < itemsize (e_me e) (rf_dtype fd);
  fk_nmemb : 0 < rf_nmemb fd < 2 ^ 31;
  fk_chunk : fwidth fd <= e_chunk e;
  fk_width : fwidth fd < 2 ^ 31
}.
(* A completed record type whose fields are separate blocks. *)
Record rec_kind (e : env) (bf : bytes) (rt : rtype) : Prop := {
  rk_packed : packed rt;
  rk_some : rt_fields rt <> [];
  rk_field : forall k fd, nth_error (rt_fields rt) k = Some fd -> exists nm, field_kind e bf fd nm;
  rk_apart : forall i j fi fj ni nj, i <> j ->
    nth_error (rt_fields rt) i = Some fi -> nth_error (rt_fields rt) j = Some fj ->
    rf_name fi = Some ni -> rf_name fj = Some nj ->
    ~ prefix_of (resolve (path_join bf ni)) (resolve (path_join bf nj))
}.

(* A file whose records can be created: its directory exists; no regular file
   stands on the way to a field's directory; no directory has the name of a
   file of a field's block, and there is no old attribute file. Anything else
   may be there, old data included. *)
Record new_records (e : env) (bf : bytes) (rt : rtype) (f : fs) (sizes : list Z) : Prop := {
  nr_layout : layout_ok sizes;
  nr_files : zlen sizes <= 2 ^ 24;
  nr_dir : way_made f (resolve bf);
  nr_way : forall k fd nm, nth_error (rt_fields rt) k = Some fd -> rf_name fd = Some nm ->
    way_free f (resolve (path_join bf nm)) /\
    fs_get f (header_path (path_join bf nm)) <> Some Dir /\
    fs_get f (attr2_path (path_join bf nm)) <> Some Dir /\
    (forall i, 0 <= i -> fs_get f (data_path (path_join bf nm) i) <> Some Dir) /\
    fs_get f (attr1_path (path_join bf nm)) = None
}.
(* Create the records of a file and run a history on them. *)
Definition create_records_and_run (e : env) (f : fs) (bf : bytes) (rt : rtype) (sizes : list Z) (os : list rop)
    : out (Z * (list hres * fs)) :=
  '(rc, f1) <- create_records e f bf rt true (zlen sizes) sizes ;;
  '(xs, f2) <- rrun e bf rt f1 os ;;
  Ret (rc, (xs, f2)).
