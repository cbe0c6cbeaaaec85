(* A file as a dictionary of tables. *)
From Coq.Strings Require Import Byte String.
From Coq Require Import List ZArith Bool.
From Verif Require Import Base Dtype Cast Array FS Fmt Attr Block File Spec AttrSpec OpenSpec HistSpec FileSpec Py PyFile.
Import ListNotations.
Open Scope Z_scope.

(* A block: element type, elements per row, rows. *)
Record content : Type := mkContent { c_dtype : bytes; c_nmemb : Z; c_table : table }.
Definition dict : Type := bytes -> option content.
Definition empty : dict := fun _ => None.
Definition put (d : dict) (n : bytes) (c : content) : dict := fun m => if bytes_eqb n m then Some c else d m.
(* The blocks, and for every File object the blocks there were when it made its
   list (None: it has made none). *)
Record fstate : Type := mkF { f_dict : dict; f_lists : list (option dict) }.
Definition set_list (vs : list (option dict)) (i : nat) (d : dict) : list (option dict) := firstn i vs ++ Some d :: skipn (S i) vs.
(* The blocks File i says there are. *)
Definition listed (st : fstate) (i : nat) : dict :=
  match nth_error (f_lists st) i with Some (Some d) => d | _ => f_dict st end.

Section Dict.
  Variable me : endian.
  Inductive fspec (st : fstate) : fop -> fres -> fstate -> Prop :=
  | fs_open : fspec st FOpen FDone (mkF (f_dict st) (f_lists st ++ [None]))
  | fs_create i n d items size N sizes : layout_ok sizes -> zlen sizes = N -> zsum sizes = size ->
      let d' := put (f_dict st) n (mkContent (dtype_normalize me d) items (new_table sizes)) in
      fspec st (FCreate i n d items size N) FDone (mkF d' (set_list (f_lists st) i d'))
  | fs_keys i l : sorted_names l -> (forall n, In n l <-> listed st i n <> None) ->
      fspec st (FKeys i) (FNames l) (mkF (f_dict st) (set_list (f_lists st) i (listed st i)))
  | fs_in i n : fspec st (FIn i n) (FBool (match listed st i n with Some _ => true | None => false end)) (mkF (f_dict st) (set_list (f_lists st) i (listed st i)))
  | fs_use i n os xs c t : f_dict st n = Some c -> hspecs me (c_dtype c) (c_nmemb c) (c_table c) os xs t ->
      fspec st (FUse i n os) (FRows xs) (mkF (put (f_dict st) n (mkContent (c_dtype c) (c_nmemb c) t)) (f_lists st))
  | fs_none i n os : f_dict st n = None -> fspec st (FUse i n os) (FRaised BigError) st
  | fs_pickle i : fspec st (FPickle i) FDone (mkF (f_dict st) (set_list (f_lists st) i (listed st i) ++ [Some (listed st i)])).
  Inductive fspecs : fstate -> list fop -> list fres -> fstate -> Prop :=
  | fss_nil st : fspecs st [] [] st
  | fss_cons st o x st1 os xs st2 : fspec st o x st1 -> fspecs st1 os xs st2 -> fspecs st (o :: os) (x :: xs) st2.
End Dict.

(* Names: components that do not begin with a dot, none of them "header". *)
Definition good_name (cs : list bytes) : Prop := cs <> [] /\ Forall shown_name cs /\ ~ In (lit "header") cs.
(* No block is above or below. *)
Definition apart (d : dict) (cs : list bytes) : Prop :=
  forall ds, good_name ds -> d (slashed ds) <> None -> prefix_of ds cs \/ prefix_of cs ds -> ds = cs.

Section Legal.
  Variables (e : env) (path : bytes).
  Definition fop_ok (st : fstate) (op : fop) : Prop :=
    match op with
    | FOpen => True
    | FKeys i | FIn i _ | FPickle i => (i < length (f_lists st))%nat
    | FCreate i n d items size N => (i < length (f_lists st))%nat /\
        let dt := dtype_normalize (e_me e) d in let w := itemsize (e_me e) dt * items in
        (exists cs, n = slashed cs /\ good_name cs /\ apart (f_dict st) cs) /\ block_name (path_join path n) /\
        header_type dt /\ dt_ok (e_me e) dt /\ 0 < items < 2 ^ 31 /\ w <= e_chunk e /\ w < 2 ^ 31 /\
        0 <= N <= 2 ^ 24 /\ 0 <= size < 2 ^ 63 /\ size * N < 2 ^ 63 /\ (N = 0 -> size = 0)
    | FUse i n os => (i < length (f_lists st))%nat /\
        match f_dict st n with
        | Some c => history_ok (e_me e) (c_dtype c) (c_nmemb c) (t_sizes (c_table c)) os
        | None => (exists cs, n = slashed cs /\ good_name cs /\ apart (f_dict st) cs) /\ block_name (path_join path n)
        end
    end.
  (* Every operation is legal, whatever state the ones before it led to. *)
  Fixpoint fops_ok (st : fstate) (os : list fop) : Prop :=
    match os with
    | [] => True
    | o :: r => fop_ok st o /\ forall x st', fspec (e_me e) st o x st' -> fops_ok st' r
    end.
End Legal.

(* File(path, create=True) where nothing is yet. *)
Definition fstart : fstate := mkF empty [None].
(* Nothing changes outside directory p. *)
Definition elsewhere_same (f f' : fs) (p : path) : Prop := forall q, ~ prefix_of p q -> fs_get f' q = fs_get f q.
