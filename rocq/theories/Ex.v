(* Concrete blocks, arrays and memories used to show that the hypotheses of
   the theorems are met. *)
From Coq.Strings Require Import Byte String.
From Coq Require Import List ZArith Lia Bool.
From Verif Require Import Base BaseFacts Dtype Cast Array FS Fmt Attr Block Spec.
Import ListNotations.
Open Scope Z_scope.

(* A little-endian machine with a buffer of 20 bytes, one with 9 bytes, and a
   big-endian machine. *)
Definition ex_env (me : endian) (chunk : Z) : env :=
  mkEnv me chunk (fun x => z2b (x * 7)) 4096 (fun a _ => a + 10000) (fun _ => lit "0").
Definition ex_e : env := ex_env LE 20.
Definition ex_e9 : env := ex_env LE 9.
Definition ex_be : env := ex_env BE 20.

(* Five rows of two big-endian i4 in three files, the second one empty. *)
Definition ex_sizes : list Z := [2; 0; 3].
Definition ex_blk (dt : string) : block :=
  mkBlock (lit dt) 2 (lit "d/blk") 5 [2; 0; 3; 0] [0; 2; 2; 5] [0; 0; 0; 0] 3 (attrset_create 0) false.
Definition ex_b : block := ex_blk ">i4".
Definition ex_f : fs :=
  [([lit "d"], Dir); ([lit "d"; lit "blk"], Dir);
   ([lit "d"; lit "blk"; lit "000000"], File []);
   ([lit "d"; lit "blk"; lit "000001"], File []);
   ([lit "d"; lit "blk"; lit "000002"], File [])].
(* The same with one row already in the last file. *)
Definition ex_f1 : fs :=
  [([lit "d"], Dir); ([lit "d"; lit "blk"], Dir);
   ([lit "d"; lit "blk"; lit "000000"], File []);
   ([lit "d"; lit "blk"; lit "000001"], File []);
   ([lit "d"; lit "blk"; lit "000002"], File (lit "abcdefgh"))].

(* Three rows in the middle of 16-byte records, and six elements stored
   backwards with gaps. *)
Definition ex_a : array := mkArray 100 (lit "<i4") [3; 2] [16; 4] 6.
Definition ex_a2 : array := mkArray 1000 (lit "<i4") [6] [-8] 6.
(* Too long for what is left of the block. *)
Definition ex_along : array := mkArray 100 (lit "<i4") [5; 2] [16; 4] 10.
Definition ex_um : mem :=
  fun x => if (0 <=? x) && (x <? 2000) then Some (z2b (x * x)) else None.
Definition ex_vs : list bytes :=
  map (fun k => match load ex_um (elem_addr ex_a (Z.of_nat k)) 4 with Some l => l | None => [] end) (seq 0 6).
Definition ex_outs : list bytes := map (@rev byte) ex_vs.
(* pointer at row 1 *)
Definition ex_p : bptr := mkPtr 0 1 1.

Ltac enum i n :=
  match n with
  | O => exfalso; lia
  | S ?m => destruct (Z.eq_dec i (Z.of_nat m)) as [->|?]; [|enum i m]
  end.

Lemma ex_layout dt : has_layout (ex_blk dt) ex_sizes.
Proof. constructor; try reflexivity; repeat constructor; discriminate. Qed.

Lemma ex_wblock e c : wblock (ex_env e c) ex_b ex_sizes 8.
Proof. constructor; [apply ex_layout|destruct e; split; reflexivity|reflexivity|destruct e; reflexivity]. Qed.

Lemma ex_array : array_ok ex_a.
Proof. constructor; try reflexivity; try discriminate. repeat constructor. Qed.
Lemma ex_array2 : array_ok ex_a2.
Proof. constructor; try reflexivity; try discriminate. repeat constructor. Qed.
Lemma ex_arraylong : array_ok ex_along.
Proof. constructor; try reflexivity; try discriminate. repeat constructor. Qed.

Lemma ex_dt : dt_ok LE (lit "<i4").
Proof. split; reflexivity. Qed.

Lemma ex_holds : holds ex_um (elem_addr ex_a) 4 0 ex_vs.
Proof.
  intros j v H. do 6 (destruct j as [|j]; [injection H as <-; reflexivity|]). destruct j; discriminate.
Qed.

Lemma ex_mapped2 : mapped ex_um (elem_addr ex_a2) 4 0 6.
Proof.
  intros x (j & Hj & Hx).
  assert (H : 900 <= x < 1100).
  { enum j 6%nat;
      match type of Hx with ?e <= _ < _ => let v := eval vm_compute in e in change e with v in Hx end; lia. }
  unfold ex_um. destruct (0 <=? x) eqn:E1; [|lia]. destruct (x <? 2000) eqn:E2; [|lia]. discriminate.
Qed.

Lemma ex_disjoint2 : elems_disjoint (elem_addr ex_a2) 4 0 6.
Proof.
  intros i j Hi Hj. assert (Hj' : 0 <= j < 6) by lia. assert (Hi' : 0 <= i < 6) by lia. destruct Hi as [_ Hi].
  enum j 6%nat; enum i 6%nat; try lia; vm_compute; (left; discriminate) || (right; discriminate).
Qed.

Lemma ex_disjoint : elems_disjoint (elem_addr ex_a) 4 0 6.
Proof.
  intros i j Hi Hj. assert (Hj' : 0 <= j < 6) by lia. assert (Hi' : 0 <= i < 6) by lia. destruct Hi as [_ Hi].
  enum j 6%nat; enum i 6%nat; try lia; vm_compute; (left; discriminate) || (right; discriminate).
Qed.

Lemma ex_ptr : ptr_at ex_sizes ex_p 1.
Proof. constructor; try reflexivity; vm_compute; try (split; discriminate); discriminate. Qed.

Lemma ex_files : files_exist ex_f (lit "d/blk") ex_sizes.
Proof. intros i Hi. simpl in Hi. do 3 (destruct i as [|i]; [vm_compute; discriminate|]). lia. Qed.
Lemma ex_files1 : files_exist ex_f1 (lit "d/blk") ex_sizes.
Proof. intros i Hi. simpl in Hi. do 3 (destruct i as [|i]; [vm_compute; discriminate|]). lia. Qed.

Lemma ex_whole1 : whole_rows ex_f1 (lit "d/blk") ex_sizes 8.
Proof.
  intros i c Hi Hc. simpl in Hi.
  destruct i as [|[|[|i]]]; [| | |lia]; vm_compute in Hc; injection Hc as <-; [exists 0|exists 0|exists 1];
    repeat split; vm_compute; discriminate.
Qed.

Lemma ex_conv : Forall2 (converts LE (lit "<i4") (lit ">i4")) ex_vs ex_outs.
Proof. vm_compute. repeat constructor. Qed.
Lemma ex_conv_back : Forall2 (converts LE (lit ">i4") (lit "<i4")) ex_outs ex_vs.
Proof. vm_compute. repeat constructor. Qed.

(* [discriminate] alone would also compute the hypotheses *)
Ltac ex_neg := let H := fresh in intro H; discriminate H.
Ltac ex_tac :=
  first [ reflexivity | ex_neg | apply (ex_wblock LE) | apply (ex_wblock BE) | exact ex_array | exact ex_array2
        | exact ex_arraylong | exact ex_dt | exact ex_holds | exact ex_mapped2 | exact ex_disjoint2 | exact ex_disjoint
        | exact ex_ptr | exact ex_files | exact ex_files1 | exact ex_whole1 | exact ex_conv | exact ex_conv_back
        | (left; reflexivity) | (split; (reflexivity || ex_neg))
        | (constructor; try reflexivity; try ex_neg; repeat constructor; ex_neg) ].
