(* Properties C54, C59: the command line utilities. *)
From Coq.Strings Require Import Byte String.
From Coq Require Import List ZArith Lia Bool.
From Verif Require Import Base BaseFacts Dtype Cast Array FS Fmt Attr Block File Spec AttrSpec OpenSpec SessSpec HistSpec FileSpec PySpec Util UtilSpec
  FSFacts FileFacts WriteFacts AttrFacts HistFacts PyNewFacts UtilFacts CopyFacts Ex PropsHeader PropsAttr PropsHist PropsFile PropsPy.
Import ListNotations.
Open Scope Z_scope.

(* ------------------------------------------------------------------ C59 *)
(* Full statement: for every input, bigfile-create exits with code 0 and the
   block then opens with the complete rows of the input. Proved for inputs of
   at least one row and buffers of at least one row; both conditions are
   needed, see below. The input is any list of rows followed by less than one
   row; what the buffer contains at first does not matter. No existing file
   other than those of the block changes. *)
Theorem C59_create_partial : forall e f path blk d nmemb rows tail buffersize junk fuel,
  let dt := dtype_normalize (e_me e) d in let w := itemsize (e_me e) dt * nmemb in
  makeable e f path blk d nmemb -> Forall (fun v => length v = Z.to_nat w) rows -> zlen tail < w -> zlen rows * nmemb < 2 ^ 63 ->
  rows <> [] -> w <= buffersize -> zlen rows + 2 <= Z.of_nat fuel ->
  exists f', bigfile_create e f path blk d nmemb buffersize junk (concat rows ++ tail) fuel = Ret (0, f') /\
    block_has e f' path blk dt nmemb [zlen rows] rows /\
    (forall q x, ~ own_file (path_join path blk) q -> fs_get f q = Some x -> fs_get f' q = Some x).
Proof. intros. apply create_spec_whole; assumption. Qed.

Lemma makeable_from e f bf nm d items rows N : bf <> [] -> (length bf <= Z.to_nat 8192)%nat -> new_from e f bf nm d items rows N -> makeable e f bf nm d items.
Proof.
  intros H1 H2 []. constructor; auto. intros q c Hq X. rewrite (nf_made q Hq) in X. discriminate X.
Qed.
Lemma ex_makeable : makeable (ex_env LE 64) ex_f1 (lit "d") (lit "x/y") (lit "=i4") 2.
Proof.
  apply (makeable_from _ _ _ _ _ _ [] (Some 1)); [discriminate|change (length (lit "d")) with 1%nat; lia|].
  apply ex_from; try (split; reflexivity); try reflexivity; try (vm_compute; congruence); [exact ex_i4_type|constructor|split; vm_compute; congruence].
Qed.
Example C59_example : makeable (ex_env LE 64) ex_f1 (lit "d") (lit "x/y") (lit "=i4") 2 /\
  Forall (fun v => length v = Z.to_nat (4 * 2)) (repeat (lit "abcdefgh") 100) /\ zlen (lit "tail") < 8 /\ (100 / (20 / 8) = 50).
Proof.
  split; [exact ex_makeable|]. split; [|split; vm_compute; reflexivity].
  apply Forall_forall. intros v Hv. apply repeat_spec in Hv. rewrite Hv. reflexivity.
Qed.

(* With a buffer smaller than a row the program never ends, whatever the
   input. *)
Theorem C59_small_buffer : forall e f path blk d nmemb input buffersize junk fuel,
  makeable e f path blk d nmemb -> 0 <= buffersize < itemsize (e_me e) (dtype_normalize (e_me e) d) * nmemb ->
  bigfile_create e f path blk d nmemb buffersize junk input fuel = Diverge.
Proof. exact create_stuck. Qed.

(* With less than a row of input it ends, with code 0, and leaves a block that
   claims 2^64 - 1 rows. *)
Theorem C59_refuted : exists e f path blk d nmemb f' b, makeable e f path blk d nmemb /\
  (forall buffersize junk input fuel, let w := itemsize (e_me e) (dtype_normalize (e_me e) d) * nmemb in w <= buffersize -> zlen input < w -> (2 <= fuel)%nat ->
     bigfile_create e f path blk d nmemb buffersize junk input fuel = Ret (0, f')) /\
  big_file_open_block e f' path blk = Ret (Some b) /\ b_size b = 2 ^ 64 - 1.
Proof.
  destruct (create_short (ex_env LE 64) ex_f1 (lit "d") (lit "x/y") (lit "=i4") 2 ex_makeable) as (f' & H).
  exists (ex_env LE 64), ex_f1, (lit "d"), (lit "x/y"), (lit "=i4"), 2, f'.
  pose proof (H 8 (fun _ => None) [] 2%nat ltac:(vm_compute; congruence) ltac:(vm_compute; reflexivity) ltac:(lia)) as E.
  assert (Ef : f' = match bigfile_create (ex_env LE 64) ex_f1 (lit "d") (lit "x/y") (lit "=i4") 2 8 (fun _ => None) [] 2 with Ret (_, g) => g | _ => [] end) by (rewrite E; reflexivity).
  destruct (big_file_open_block (ex_env LE 64) f' (lit "d") (lit "x/y")) as [[b|]|u|] eqn:Eo; rewrite Ef in Eo; vm_compute in Eo; try discriminate Eo.
  exists b. split; [exact ex_makeable|]. split; [exact H|]. split; [reflexivity|]. injection Eo as <-. reflexivity.
Qed.

(* ------------------------------------------------------------------ C54 *)
(* Full statement: whatever the block, the file count and the buffer size,
   after a successful bigfile-copy the new block has the type, width, rows and
   attributes of the old one, and valid checksums.
   The old block is any block made through the library: a file and the block
   are created, its rows and attributes are used in any number of rounds, each
   ended by closing it. t and M are what it then holds. If every row was
   written (or lies before a written row of its file, and reads as zeros) the
   program exits with code 0 and the new block has these rows and attributes,
   evenly spread over the files asked for; otherwise it exits with code 1.
   No other existing file changes, so the old block stays as it was.
   Proved if: the new block does not lie in the directory of the old one; it
   is given a positive number of files (or the old one is empty), at most 2^24;
   rows times files is less than 2^64; the buffer holds a row. *)
Theorem C54_copy_partial : forall e f path blk d nmemb sizes rs,
  let dt := dtype_normalize (e_me e) d in let w := itemsize (e_me e) dt * nmemb in
  g_clean e -> makeable e f path blk d nmemb -> layout_ok sizes -> zlen sizes <= 2 ^ 24 ->
  rounds_ok (e_me e) dt nmemb sizes rs -> attr_bytes (e_me e) rs <= 2 ^ 61 ->
  exists f1 t M, make_and_use e f path blk d nmemb sizes rs = Ret (Some (0, f1)) /\
    lives (e_me e) dt nmemb (new_table sizes) (fun _ => None) rs t M /\
    forall newpath newblk Nfile buffersize fuel,
    let N := if (Nfile =? -1) || (zlen (t_sizes t) =? 0) then zlen (t_sizes t) else Nfile in
    let kept f2 := (forall q x, ~ own_file (path_join newpath newblk) q -> fs_get f1 q = Some x -> fs_get f2 q = Some x) /\
      (forall q x, ~ own_file (path_join newpath newblk) q -> fs_get f1 q = None -> fs_get f2 q = Some x -> x = Dir /\ prefix_of q (resolve (path_join newpath newblk))) in
    makeable e f1 newpath newblk dt nmemb -> ~ prefix_of (resolve (path_join path blk)) (resolve (path_join newpath newblk)) ->
    (N = 0 /\ t_size t = 0 \/ 0 < N) -> N <= 2 ^ 24 -> t_size t * N < 2 ^ 64 -> t_size t * nmemb < 2 ^ 63 ->
    w <= buffersize < 2 ^ 63 -> t_size t < Z.of_nat fuel ->
    (forall rows, shows_all w t rows ->
     exists f2 sizes2, bigfile_copy e f1 path newpath blk newblk Nfile buffersize fuel = Ret (0, f2) /\
       zlen sizes2 = N /\ Forall (fun s => s = t_size t / N \/ s = t_size t / N + 1) sizes2 /\
       block_has e f2 newpath newblk dt nmemb sizes2 rows /\ block_attrs e f2 newpath newblk M /\ kept f2) /\
    ((exists r, 0 <= r < t_size t /\ absent t r) ->
     exists f2, bigfile_copy e f1 path newpath blk newblk Nfile buffersize fuel = Ret (1, f2) /\ kept f2).
Proof.
  intros e f path blk d nmemb sizes rs dt w Hg Hmk Hlo HN Hrs Hab.
  destruct (live e f path blk d nmemb sizes rs Hg Hmk Hlo HN Hrs Hab) as (f1 & t & M & dd & b0 & E & L & F & A & O & _).
  exists f1, t, M. split; [exact E|]. split; [exact L|]. intros newpath newblk Nfile bs fuel N kept Hmk2 Hsep HN2 HN24 HsN Hsm Hbs Hfu.
  assert (Hdn : dtype_normalize (e_me e) dt = dt) by apply Hmk. assert (Hbn : block_name (path_join path blk)) by apply Hmk.
  assert (Hlay : 0 <= t_size t). { unfold t_size. apply zsum_nonneg. apply (hl_nonneg _ _ (wb_layout _ _ _ _ (hv_wb _ _ _ _ _ _ _ _ (fr_inv _ _ _ _ _ _ _ _ _ F)))). }
  split.
  - intros rows Hsh.
    destruct (copy_run e f1 path newpath blk newblk dt nmemb Nfile t dd b0 rows bs fuel M Hg Hbn O F A Hmk2 Hsep HN2 HN24 HsN Hdn Hsh Hsm Hbs Hfu) as (f2 & E2 & H2 & A2 & K2 & _).
    destruct (copy_even (t_size t) N Hlay HN2 HsN) as (V1 & _ & V3). exists f2, (copy_sizes (t_size t) N). auto 10.
  - intros Hr. assert (HNp : 0 < N) by (destruct HN2 as [[_ X]|X]; [destruct Hr as (r & Hr & _); lia|exact X]).
    assert (Hw : 0 < w) by (pose proof (proj2 (mk_dt _ _ _ _ _ _ Hmk)) as Mi; pose proof (mk_items _ _ _ _ _ _ Hmk) as Mj; unfold w, dt; clear -Mi Mj; nia).
    destruct (copy_missing e f1 path newpath blk newblk dt nmemb Nfile t dd b0 bs fuel Hbn O F Hmk2 Hsep HNp HN24 HsN Hdn Hsm ltac:(lia)) as [_ H].
    destruct (H ltac:(apply Hbs) Hfu Hr) as (f2 & Ef & Kf). exists f2. split; [exact Ef|exact Kf].
Qed.

(* The attributes and the rows of a block of type >i4 on a machine with a
   20-byte buffer are written; the block can be copied to another file. *)
Definition ex_rounds : list round := [Attrs ex_sops; Rows ex_full].
Definition ex_made : fs := match make_and_use ex_e ex_f1 (lit "d") (lit "x/y") (lit ">i4") 2 ex_sizes3 ex_rounds with Ret (Some (_, g)) => g | _ => [] end.
Lemma ex_makeable2 : makeable ex_e ex_f1 (lit "d") (lit "x/y") (lit ">i4") 2.
Proof.
  destruct ex_makeable. constructor; auto.
  - exact ex_type.
  - split; reflexivity.
Qed.
Lemma ex_makeable3 : makeable ex_e ex_made (lit "n") (lit "z") (lit ">i4") 2.
Proof.
  constructor.
  - split; [discriminate|change (length (lit "n")) with 1%nat; lia].
  - intros q c [r Hq] X. destruct q as [|a q]; [discriminate X|]. injection Hq as <- Hq. destruct q; [vm_compute in X; discriminate X|discriminate Hq].
  - split; [reflexivity|]. split; [change (length (path_join (lit "n") (lit "z"))) with 3%nat; lia|reflexivity].
  - split.
    + intros q c [r Hq] X. destruct q as [|a q]; [discriminate X|]. injection Hq as <- Hq. destruct q as [|a q]; [vm_compute in X; discriminate X|]. injection Hq as <- Hq. destruct q; [vm_compute in X; discriminate X|discriminate Hq].
    + intros q Hq. destruct (RecNewFacts.in_block_app _ _ (or_introl Hq)) as (c & ->). change (resolve (path_join (lit "n") (lit "z"))) with [lit "n"; lit "z"]. vm_compute. discriminate.
  - vm_compute. reflexivity.
  - split; reflexivity.
  - exact ex_type.
  - split; reflexivity.
  - vm_compute. congruence.
  - reflexivity.
Qed.
Example C54_example : g_clean ex_e /\ makeable ex_e ex_f1 (lit "d") (lit "x/y") (lit ">i4") 2 /\ layout_ok ex_sizes3 /\ rounds_ok LE (lit ">i4") 2 ex_sizes3 ex_rounds /\
  attr_bytes LE ex_rounds <= 2 ^ 61 /\ makeable ex_e ex_made (lit "n") (lit "z") (lit ">i4") 2 /\ ~ prefix_of (resolve (lit "d/x/y")) (resolve (lit "n/z")) /\
  bigfile_copy ex_e ex_made (lit "d") (lit "n") (lit "x/y") (lit "z") 2 8 5 = Ret (0, match bigfile_copy ex_e ex_made (lit "d") (lit "n") (lit "x/y") (lit "z") 2 8 5 with Ret (_, g) => g | _ => [] end).
Proof.
  split; [exact ex_clean|]. split; [exact ex_makeable2|]. split; [split; [repeat constructor; lia|]; split; vm_compute; reflexivity|].
  split; [split; [exact ex_sops_ok|]; split; [exact ex_full_ok|exact I]|]. split; [vm_compute; congruence|]. split; [exact ex_makeable3|].
  split; [intros [r H]; discriminate H|vm_compute; reflexivity].
Qed.

(* With a buffer smaller than a row it never ends. *)
Theorem C54_small_buffer : forall e f path blk d nmemb sizes rs,
  let dt := dtype_normalize (e_me e) d in
  g_clean e -> makeable e f path blk d nmemb -> layout_ok sizes -> zlen sizes <= 2 ^ 24 ->
  rounds_ok (e_me e) dt nmemb sizes rs -> attr_bytes (e_me e) rs <= 2 ^ 61 ->
  exists f1 t M, make_and_use e f path blk d nmemb sizes rs = Ret (Some (0, f1)) /\
    lives (e_me e) dt nmemb (new_table sizes) (fun _ => None) rs t M /\
    forall newpath newblk buffersize fuel, makeable e f1 newpath newblk dt nmemb -> ~ prefix_of (resolve (path_join path blk)) (resolve (path_join newpath newblk)) ->
    0 < t_size t < 2 ^ 32 -> 0 <= buffersize < itemsize (e_me e) dt * nmemb ->
    bigfile_copy e f1 path newpath blk newblk 1 buffersize fuel = Diverge.
Proof.
  intros e f path blk d nmemb sizes rs dt Hg Hmk Hlo HN Hrs Hab.
  destruct (live e f path blk d nmemb sizes rs Hg Hmk Hlo HN Hrs Hab) as (f1 & t & M & dd & b0 & E & L & F & A & O & _).
  exists f1, t, M. split; [exact E|]. split; [exact L|]. intros newpath newblk bs fuel Hmk2 Hsep Ht Hbs.
  pose proof (mk_items _ _ _ _ _ _ Hmk) as Mi. pose proof (mk_width _ _ _ _ _ _ Hmk) as Mw.
  assert (Hz : zlen (t_sizes t) <> 0) by (intros X; unfold t_size in Ht; destruct (t_sizes t); [cbn in Ht; lia|rewrite zlen_cons in X; pose proof (zlen_nonneg l); lia]).
  assert (HN1 : pieces (zlen (t_sizes t)) 1 = 1) by (unfold pieces; replace (zlen (t_sizes t) =? 0) with false by lia; reflexivity).
  destruct (copy_missing e f1 path newpath blk newblk dt nmemb 1 t dd b0 bs fuel (mk_name _ _ _ _ _ _ Hmk) O F Hmk2 Hsep ltac:(rewrite HN1; lia) ltac:(rewrite HN1; lia) ltac:(rewrite HN1; lia)
    (proj1 (mk_dt _ _ _ _ _ _ Hmk)) ltac:(nia) ltac:(fold dt in Mw; lia)) as [H _].
  apply H; lia.
Qed.

(* Asked for more than 2^24 files it exits with code 0, but the new block
   cannot be opened. *)
Theorem C54_refuted : exists e f path blk d nmemb sizes f1, makeable e f path blk d nmemb /\ layout_ok sizes /\
  make_and_use e f path blk d nmemb sizes [] = Ret (Some (0, f1)) /\
  forall newpath newblk Nfile buffersize fuel, makeable e f1 newpath newblk d nmemb -> ~ prefix_of (resolve (path_join path blk)) (resolve (path_join newpath newblk)) ->
    2 ^ 24 < Nfile < 2 ^ 31 ->
    exists f2, bigfile_copy e f1 path newpath blk newblk Nfile buffersize fuel = Ret (0, f2) /\ big_file_open_block e f2 newpath newblk = Ret None.
Proof.
  set (e := ex_env LE 64).
  assert (Hg : g_clean e) by (intros z; repeat constructor; intro H; discriminate H).
  assert (Hmk : makeable e ex_f1 (lit "d") (lit "x/y") (lit "<i4") 2).
  { destruct ex_makeable. constructor; auto. }
  assert (Hlo : layout_ok [0]) by (split; [repeat constructor; lia|]; split; vm_compute; reflexivity).
  destruct (live e ex_f1 (lit "d") (lit "x/y") (lit "<i4") 2 [0] [] Hg Hmk Hlo ltac:(vm_compute; congruence) I ltac:(vm_compute; congruence)) as (f1 & t & M & dd & b0 & E & L & F & A & O & _).
  inversion L; subst t M. exists e, ex_f1, (lit "d"), (lit "x/y"), (lit "<i4"), 2, [0], f1. split; [exact Hmk|]. split; [exact Hlo|]. split; [exact E|].
  intros newpath newblk Nfile bs fuel Hmk2 Hsep HN.
  assert (dd = []). { destruct dd as [|[k v] l]; [reflexivity|]. specialize (A k). cbn in A. rewrite bytes_eqb_refl in A. discriminate A. }
  subst dd. change (dtype_normalize (e_me e) (lit "<i4")) with (lit "<i4") in F.
  apply (copy_many e f1 (lit "d") newpath (lit "x/y") newblk (lit "<i4") 2 Nfile (new_table [0]) b0 bs fuel); auto; try apply Hmk; try discriminate; reflexivity.
Qed.

Print Assumptions C59_create_partial.
Print Assumptions C59_small_buffer.
Print Assumptions C59_refuted.
Print Assumptions C54_copy_partial.
Print Assumptions C54_small_buffer.
Print Assumptions C54_refuted.
