(* Several Columns of one block, as one table. *)
From Coq.Strings Require Import Byte String.
From Coq Require Import List ZArith Bool.
From Verif Require Import Base Dtype Cast Array FS Fmt Attr Block Spec HistSpec Pickle.
Import ListNotations.
Open Scope Z_scope.

(* What is known of a Column: the files it knows about, whether it has been
   asked to write something that it has not flushed, and whether its checksums
   count all bytes written, through whichever Column. *)
Record view : Type := mkView { v_files : list Z; v_unsaved : bool; v_sums : bool }.
(* The table all Columns share, the Columns (None: released), and whether the
   checksums in the header count all bytes written. *)
Record pstate : Type := mkP { p_table : table; p_views : list (option view); p_sums : bool }.

(* The part of the table in the given files. *)
Definition seen (t : table) (s : list Z) : table :=
  mkTab s (fun r => if r <? zsum s then t_row t r else None) (t_sum t).

(* Files of the block and views of the Columns after an operation. *)
Definition view_at (vs : list (option view)) (i : nat) : option view :=
  match nth_error vs i with Some o => o | None => None end.
Definition files_after (sizes : list Z) (op : pop) : list Z :=
  match op with PGrow _ gs => sizes ++ gs | _ => sizes end.
(* Another Column writes. *)
Definition outdate (o : option view) : option view :=
  match o with Some v => Some (mkView (v_files v) (v_unsaved v) false) | None => None end.
(* The header after a flush of Column i. *)
Definition after_save (vs : list (option view)) (hd : bool) (i : nat) : bool :=
  match view_at vs i with Some v => if v_unsaved v then v_sums v else hd | None => hd end.
Definition sums_at (vs : list (option view)) (i : nat) : bool :=
  match view_at vs i with Some v => v_sums v | None => false end.
Definition header_after (sizes : list Z) (vs : list (option view)) (hd : bool) (op : pop) : bool :=
  match op with
  | POn _ (HWrite o _ _) => if zsum sizes <? o then hd else false
  | POn i HFlush | POn i HReopen | PDrop i => after_save vs hd i
  | PGrow i _ => sums_at vs i
  | _ => hd
  end.
Definition views_after (sizes : list Z) (vs : list (option view)) (hd : bool) (op : pop) : list (option view) :=
  match op with
  | POn i (HWrite o _ _) => if zsum sizes <? o then vs else set_at (map outdate vs) i (Some (mkView sizes true (sums_at vs i)))
  | POn i HFlush => match view_at vs i with Some v => set_at vs i (Some (mkView (v_files v) false (v_sums v))) | None => vs end
  | POn i HReopen => set_at vs i (Some (mkView sizes false (after_save vs hd i)))
  | POn _ _ => vs
  | PGrow i gs => set_at vs i (Some (mkView (sizes ++ gs) false (sums_at vs i)))
  | PPickle i => vs ++ [view_at vs i]
  | PDrop i => set_at vs i None
  | POpen => vs ++ [Some (mkView sizes false hd)]
  end.

Section Table.
  Variables (me : endian) (dt : bytes) (nmemb : Z).

  (* Whichever Column is used, a write changes the one table and a read shows
     it, as far as the files of that Column go. All other calls succeed and
     change no row. *)
  Definition pspec (st : pstate) (op : pop) (x : hres) (st' : pstate) : Prop :=
    let t := p_table st in
    p_views st' = views_after (t_sizes t) (p_views st) (p_sums st) op /\ p_sums st' = header_after (t_sizes t) (p_views st) (p_sums st) op /\
    match op with
    | POn i (HWrite o a um) => hspec me dt nmemb t (HWrite o a um) x (p_table st')
    | POn i (HRead o a um) => p_table st' = t /\ exists v, view_at (p_views st) i = Some v /\
        hspec me dt nmemb (seen t (v_files v)) (HRead o a um) x (seen t (v_files v))
    | PGrow i gs => x = (0, None) /\ p_table st' = mkTab (t_sizes t ++ gs) (t_row t) (t_sum t)
    | _ => x = (0, None) /\ p_table st' = t
    end.
  Inductive pspecs : pstate -> list pop -> list hres -> pstate -> Prop :=
  | pss_nil st : pspecs st [] [] st
  | pss_cons st o x st1 os xs st2 : pspec st o x st1 -> pspecs st1 os xs st2 -> pspecs st (o :: os) (x :: xs) st2.

  (* Legal operations: released Columns are not used. A Column writes only if
     it knows all files, and grows only if, besides, no other Column has
     something to save. *)
  Definition pop_ok (sizes : list Z) (vs : list (option view)) (op : pop) : Prop :=
    match op with
    | POn i (HWrite o a um) => hop_ok me dt nmemb sizes (HWrite o a um) /\ exists v, view_at vs i = Some v /\ v_files v = sizes
    | POn i (HGrow _) => False
    | POn i o => hop_ok me dt nmemb sizes o /\ view_at vs i <> None
    | PGrow i gs => hop_ok me dt nmemb sizes (HGrow gs) /\ (exists v, view_at vs i = Some v /\ v_files v = sizes) /\
        forall j v, j <> i -> view_at vs j = Some v -> v_unsaved v = false
    | PPickle i | PDrop i => view_at vs i <> None
    | POpen => True
    end.
  Fixpoint pops_ok (sizes : list Z) (vs : list (option view)) (hd : bool) (os : list pop) : Prop :=
    match os with
    | [] => True
    | o :: r => pop_ok sizes vs o /\ pops_ok (files_after sizes o) (views_after sizes vs hd o) (header_after sizes vs hd o) r
    end.
End Table.

(* The block as it is created, with one Column. *)
Definition pstart (sizes : list Z) : pstate := mkP (new_table sizes) [Some (mkView sizes false true)] true.
Definition history_legal (me : endian) (dt : bytes) (nmemb : Z) (sizes : list Z) (os : list pop) : Prop :=
  pops_ok me dt nmemb sizes (p_views (pstart sizes)) true os.
(* The checksums of a handle are those of all bytes written to its files. *)
Definition counts (t : table) (n : nat) (b : block) : Prop :=
  forall k, (k < n)%nat -> nth k (b_fchecksum b) 0 = t_sum t k mod 2 ^ 32.
(* Every Column is a handle of the files in its view. *)
Definition views_hold (st : pstate) (cs : list column) : Prop :=
  length cs = length (p_views st) /\ forall i v, view_at (p_views st) i = Some v ->
    exists b, nth_error cs i = Some (Some b) /\ has_layout b (v_files v) /\ b_size b = zsum (v_files v) /\ b_dirty b = v_unsaved v /\
      (v_sums v = true -> counts (p_table st) (length (v_files v)) b).
