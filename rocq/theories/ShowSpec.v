(* Vocabulary for bigfile-ls, bigfile-check and bigfile-get-attr. *)
From Coq.Strings Require Import Byte String.
From Coq Require Import List ZArith Bool.
From Verif Require Import Base Dtype Cast CastSpec Array FS Fmt Attr Block File Spec AttrSpec HistSpec FileSpec UtilSpec ToolsSpec.
Import ListNotations.
Open Scope Z_scope.

(* The components of a name that bigfile-ls looks at: none begins with a dot. *)
Definition visible (cs : list bytes) : Prop := cs <> [] /\ Forall shown_name cs.
(* Opening the block of this name gives b. *)
Definition opens_as (e : env) (f : fs) (path name : bytes) (b : block) : Prop := big_file_open_block e f path name = Ret (Some b).

(* The order of strings by their bytes, and of names by their components: a
   name comes before those that continue it. *)
Inductive bytes_before : bytes -> bytes -> Prop :=
| bb_nil c r : bytes_before [] (c :: r)
| bb_lt x y a b : b2z x < b2z y -> bytes_before (x :: a) (y :: b)
| bb_eq x a b : bytes_before a b -> bytes_before (x :: a) (x :: b).
Inductive before : list bytes -> list bytes -> Prop :=
| be_nil c r : before [] (c :: r)
| be_lt x y a b : bytes_before x y -> before (x :: a) (y :: b)
| be_eq x a b : before a b -> before (x :: a) (x :: b).

(* One name per line. *)
Definition lines (names : list bytes) : bytes := concat (map (fun s => s ++ [x0a]) names).

(* A string without blanks. *)
Definition unbroken (s : bytes) : Prop := s <> [] /\ Forall (fun c => c <> " "%byte /\ c <> x09 /\ c <> x0a) s.
(* A line consists of these fields, separated by one or more blanks, and a line
   end. *)
Inductive fields_line : list bytes -> bytes -> Prop :=
| fl_last s : fields_line [s] (s ++ [x0a])
| fl_more s k l t : fields_line l t -> fields_line (s :: l) (s ++ repeat " "%byte (S k) ++ t).

(* One byte of one data file of the block has changed from old to new. *)
Definition one_byte (f f' : fs) (base : bytes) (sizes : list Z) (old new : byte) : Prop :=
  exists i l r, (i < length sizes)%nat /\ data_file f base i = Some (l ++ old :: r) /\
    data_file f' base i = Some (l ++ new :: r) /\ forall p, p <> data_path base (Z.of_nat i) -> fs_get f' p = fs_get f p.

(* The sum of all bytes ever written to the block, and a sum reduced as
   sum -s does. *)
Definition written_bytes (t : table) : Z := zsum (map (t_sum t) (seq 0 (length (t_sizes t)))).
Definition sysv_of (s : Z) : Z :=
  let r := s mod 2 ^ 16 + (s mod 2 ^ 32) / 2 ^ 16 in
  r mod 2 ^ 16 + r / 2 ^ 16.
(* No row is written twice. *)
Fixpoint rounds_once (me : endian) (dt : bytes) (nmemb : Z) (t : table) (rs : list round) : Prop :=
  match rs with
  | [] => True
  | Rows os :: r => written_once me dt nmemb t os /\ forall xs t', hspecs me dt nmemb t os xs t' -> rounds_once me dt nmemb t' r
  | Attrs _ :: r => rounds_once me dt nmemb t r
  end.

(* Elements of an integer type in decimal, with a blank between two. *)
Inductive spaced (d : bytes) (width : Z) (signed : bool) : list bytes -> bytes -> Prop :=
| sd_nil : spaced d width signed [] []
| sd_one v t : numeral t (int_value d width signed v) -> spaced d width signed [v] t
| sd_more v vs t r : vs <> [] -> numeral t (int_value d width signed v) -> spaced d width signed vs r ->
    spaced d width signed (v :: vs) (t ++ lit " " ++ r).
(* s is the value of an attribute with the elements vs of an integer type, as
   bigfile-get-attr prints it. *)
Definition value_text (me : endian) (v : aval) (s : bytes) : Prop :=
  exists width signed vs, int_type (dtype_normalize me (av_dtype v)) width signed /\ av_data v = concat vs /\ zlen vs = av_nmemb v /\
    Forall (fun x => Z.of_nat (length x) * 8 = width) vs /\ spaced (dtype_normalize me (av_dtype v)) width signed vs s.
(* Its line: name, type, number of elements and value. *)
Definition attr_line (name : bytes) (v : aval) (s : bytes) : bytes :=
  name ++ repeat " "%byte (20 - length name) ++ lit " " ++ av_dtype v ++ lit " " ++
  (let n := print_signed (av_nmemb v) in repeat " "%byte (3 - length n) ++ n) ++ lit "  [ " ++ s ++ lit " ]" ++ [x0a].
(* Several attributes, one line each. *)
Inductive attrs_text (me : endian) : list (bytes * aval) -> bytes -> Prop :=
| atx_nil : attrs_text me [] []
| atx_cons name v s l r : value_text me v s -> attrs_text me l r -> attrs_text me ((name, v) :: l) (attr_line name v s ++ r).
(* Several names on the command line, one line each; M the attributes. *)
Inductive names_text (me : endian) (M : bytes -> option aval) : list bytes -> bytes -> Prop :=
| nt_nil : names_text me M [] []
| nt_some name v s l r : M name = Some v -> value_text me v s -> names_text me M l r -> names_text me M (name :: l) (attr_line name v s ++ r)
| nt_none name l r : M name = None -> names_text me M l r -> names_text me M (name :: l) (name ++ lit ", not attr:" ++ [x0a] ++ r).
