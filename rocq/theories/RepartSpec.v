(* Specification of renaming, removing and repartitioning blocks. *)
From Coq.Strings Require Import Byte String.
From Coq Require Import List ZArith Bool.
From Verif Require Import Base Dtype Array FS Attr Block File Spec AttrSpec OpenSpec HistSpec FileSpec Py PySpec UtilSpec.
Import ListNotations.
Open Scope Z_scope.
Local Open Scope out_scope.

(* The same handle, but with another path. *)
Definition at_path (base : bytes) (b : block) : block :=
  mkBlock (b_dtype b) (b_nmemb b) base (b_size b) (b_fsize b) (b_foffset b) (b_fchecksum b) (b_Nfile b) (b_attrset b) (b_dirty b).

(* What opening gave, with another path. *)
Definition opened_at (base : bytes) (r : out (option block)) : out (option block) := bind r (fun o => Ret (option_map (at_path base) o)).

(* The entry s, with all that is in it, is now t, and nothing else changed. *)
Definition moved (f f' : fs) (s t : path) : Prop :=
  (forall r, fs_get f' (t ++ r) = fs_get f (s ++ r)) /\
  (forall r, fs_get f' (s ++ r) = None) /\
  (forall q, ~ prefix_of s q -> ~ prefix_of t q -> fs_get f' q = fs_get f q).
(* The entries of l, with all that is in them, are gone, and nothing else
   changed. *)
Definition removed (f f' : fs) (l : list path) : Prop :=
  (forall q p, In p l -> prefix_of p q -> fs_get f' q = None) /\
  (forall q, (forall p, In p l -> ~ prefix_of p q) -> fs_get f' q = fs_get f q).

(* ------------------------------------------------------------------ *)
(* Blocks to be made: where, what, and how it is used before it is closed. *)
Record plan : Type := mkPlan { p_dir : list bytes; p_name : bytes; p_type : bytes; p_nmemb : Z; p_sizes : list Z; p_rounds : list round }.
Definition p_blk (p : plan) : bytes := slashed (p_dir p ++ [p_name p]).
(* the name the block has while it is repartitioned *)
Definition p_blk2 (p : plan) : bytes := p_blk p ++ lit "-REPBAK".
Definition p_place (path : bytes) (p : plan) : FS.path := resolve path ++ p_dir p ++ [p_name p].
Definition p_place2 (path : bytes) (p : plan) : FS.path := resolve path ++ p_dir p ++ [p_name p ++ lit "-REPBAK"].
Fixpoint make_all (e : env) (f : fs) (path : bytes) (ps : list plan) : out (option fs) :=
  match ps with
  | [] => Ret (Some f)
  | p :: ps =>
      r <- make_and_use e f path (p_blk p) (p_type p) (p_nmemb p) (p_sizes p) (p_rounds p) ;;
      match r with
      | Some (0, f) => make_all e f path ps
      | _ => Ret None
      end
  end.
Record plan_ok (e : env) (f : fs) (path : bytes) (p : plan) : Prop := {
  po_dir : Forall entry_name (p_dir p);
  po_name : entry_name (p_name p);
  po_make : makeable e f path (p_blk p) (p_type p) (p_nmemb p);
  po_layout : layout_ok (p_sizes p);
  po_files : zlen (p_sizes p) <= 2 ^ 24;
  po_rounds : rounds_ok (e_me e) (dtype_normalize (e_me e) (p_type p)) (p_nmemb p) (p_sizes p) (p_rounds p);
  po_attrs : attr_bytes (e_me e) (p_rounds p) <= 2 ^ 61
}.
(* No name of one block, nor the name it has meanwhile, is on the way to a name
   of another. *)
Definition separate (path : bytes) (ps : list plan) : Prop :=
  forall i k p q x y, i <> k -> nth_error ps i = Some p -> nth_error ps k = Some q ->
    (x = p_place path p \/ x = p_place2 path p) -> (y = p_place path q \/ y = p_place2 path q) -> ~ prefix_of x y.
(* What the block then holds: the table of its rows and its attributes. *)
Definition holds_after (e : env) (p : plan) (tM : table * amap) : Prop :=
  lives (e_me e) (dtype_normalize (e_me e) (p_type p)) (p_nmemb p) (new_table (p_sizes p)) (fun _ => None) (p_rounds p) (fst tM) (snd tM).
(* It can be repartitioned into N files: all its rows were written, or read as
   zeros, and are these; sizes are within the ranges of the types. *)
Record fits (e : env) (path : bytes) (N : Z) (fuel : nat) (p : plan) (t : table) (rows : list bytes) : Prop := {
  ft_rows : shows_all (itemsize (e_me e) (dtype_normalize (e_me e) (p_type p)) * p_nmemb p) t rows;
  ft_name : (length (path_join path (p_blk2 p)) <= Z.to_nat 8192)%nat;
  ft_width : itemsize (e_me e) (dtype_normalize (e_me e) (p_type p)) * p_nmemb p <= 2 ^ 28;
  ft_pieces : N = 0 /\ t_size t = 0 \/ 0 < N;
  ft_many : N <= 2 ^ 24;
  ft_prod : t_size t * N < 2 ^ 64;
  ft_small : t_size t * p_nmemb p < 2 ^ 63;
  ft_fuel : t_size t < Z.of_nat fuel
}.
(* The number of files asked for; -1, and a block without files, keep it. *)
Definition files_for (Nfile : Z) (t : table) : Z := if (Nfile =? -1) || (zlen (t_sizes t) =? 0) then zlen (t_sizes t) else Nfile.

(* The block can be opened and has these rows: reading them all returns them. *)
Definition block_rows (e : env) (f : fs) (path blk dt : bytes) (nmemb : Z) (rows : list bytes) : Prop :=
  exists b a m, big_file_open_block e f path blk = Ret (Some b) /\
    b_dtype b = dt /\ b_nmemb b = nmemb /\ b_size b = zlen rows /\
    big_block_read_simple e f b 0 (b_size b) None = Ret (0, Some (a, m)) /\
    a_dtype a = dt /\ a_dims a = [zlen rows; nmemb] /\ load m (a_data a) (length (concat rows)) = Some (concat rows).
