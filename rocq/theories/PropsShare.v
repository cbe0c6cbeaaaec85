(* Properties C75, C76: bigfile-copy-mpi and bigfile-sample-mpi. *)
From Coq.Strings Require Import Byte String.
From Coq Require Import List ZArith Lia Bool.
From Verif Require Import Base BaseFacts Dtype Cast Array FS Fmt Attr Block File Split Spec AttrSpec OpenSpec SessSpec HistSpec FileSpec PySpec Util UtilSpec
  FSFacts FileFacts WriteFacts AttrFacts HistFacts PyNewFacts UtilFacts CopyFacts MiscFacts CopyMpi PropsCopyMpi Share ShareSpec ShareFacts
  Ex PropsHeader PropsAttr PropsHist PropsFile PropsPy PropsUtil.
Import ListNotations.
Open Scope Z_scope.

(* ------------------------------------------------------------------ C75 *)
(* Full statement: whenever bigfile-copy-mpi exits with code 0 the new block has
   the type, width, rows and attributes of the old one and valid checksums.
   False if a row of the old block was never written, see below. Otherwise:
   the old block is any block made through the library (as in C54), t and M are
   what it holds; the program runs with any number of workers, sched is any
   order in which they process items at any point of any run of their
   protocol. Then no item fails, the program exits with code 0, and once
   everybody has returned the new block is complete. No other existing file
   changes. The conditions on the new block are those of C54; fewer than 2^62
   rows, at most 2^62 in the buffer. *)
Theorem C75_copy_partial : forall e f path blk d nmemb sizes rs,
  let dt := dtype_normalize (e_me e) d in let w := itemsize (e_me e) dt * nmemb in
  g_clean e -> makeable e f path blk d nmemb -> layout_ok sizes -> zlen sizes <= 2 ^ 24 ->
  rounds_ok (e_me e) dt nmemb sizes rs -> attr_bytes (e_me e) rs <= 2 ^ 61 ->
  exists f1 t M, make_and_use e f path blk d nmemb sizes rs = Ret (Some (0, f1)) /\
    lives (e_me e) dt nmemb (new_table sizes) (fun _ => None) rs t M /\
    forall newpath newblk Nfile n buffersize sched finished rows,
    let N := if (Nfile =? -1) || (zlen (t_sizes t) =? 0) then zlen (t_sizes t) else Nfile in
    let kept f2 := (forall q x, ~ own_file (path_join newpath newblk) q -> fs_get f1 q = Some x -> fs_get f2 q = Some x) /\
      (forall q x, ~ own_file (path_join newpath newblk) q -> fs_get f1 q = None -> fs_get f2 q = Some x -> x = Dir /\ prefix_of q (resolve (path_join newpath newblk))) in
    makeable e f1 newpath newblk dt nmemb -> ~ prefix_of (resolve (path_join path blk)) (resolve (path_join newpath newblk)) ->
    (N = 0 /\ t_size t = 0 \/ 0 < N) -> N <= 2 ^ 24 -> t_size t * N < 2 ^ 64 -> t_size t * nmemb < 2 ^ 63 -> t_size t < 2 ^ 62 ->
    w <= buffersize < 2 ^ 62 -> processed n (t_size t) (buffersize / w) sched finished -> shows_all w t rows ->
    exists f2 sizes2, bigfile_copy_mpi e f1 path newpath blk newblk Nfile n sched = Ret (0, repeat true (length sched), f2) /\
       zlen sizes2 = N /\ Forall (fun s => s = t_size t / N \/ s = t_size t / N + 1) sizes2 /\
       block_attrs e f2 newpath newblk M /\ kept f2 /\ (finished = true -> block_has e f2 newpath newblk dt nmemb sizes2 rows).
Proof.
  intros e f path blk d nmemb sizes rs dt w Hg Hmk Hlo HN Hrs Hab.
  destruct (live e f path blk d nmemb sizes rs Hg Hmk Hlo HN Hrs Hab) as (f1 & t & M & dd & b0 & E & L & F & A & O & _).
  exists f1, t, M. split; [exact E|]. split; [exact L|]. intros newpath newblk Nfile n bs sched fin rows N kept Hmk2 Hsep HN2 HN24 HsN Hsm H62 Hbs Hp Hsh.
  assert (Hdn : dtype_normalize (e_me e) dt = dt) by apply Hmk. assert (Hbn : block_name (path_join path blk)) by apply Hmk.
  assert (Hw : 0 < w) by (pose proof (proj2 (mk_dt _ _ _ _ _ _ Hmk)) as Mi; pose proof (mk_items _ _ _ _ _ _ Hmk) as Mj; unfold w, dt; clear -Mi Mj; nia).
  assert (Hch : 0 < bs / w < 2 ^ 62). { split; [apply Z.div_str_pos; lia|]. apply Z.le_lt_trans with bs; [apply Z.div_le_upper_bound; nia|lia]. }
  destruct (copy_mpi_run e f1 path newpath blk newblk dt nmemb Nfile t dd b0 M rows n (bs / w) sched fin Hg Hbn O F A Hmk2 Hsep HN2 HN24 HsN Hdn Hsh Hsm H62 Hch Hp)
    as (f2 & E2 & K2 & A2 & (V1 & _ & V3) & H2).
  exists f2, (even_split (t_size t) N). split; [exact E2|]. split; [exact V1|]. split; [exact V3|]. split; [exact A2|]. split; [exact K2|exact H2].
Qed.
Print Assumptions C75_copy_partial.

(* Three rows, buffer of two, two workers: worker 1 copies the first two, then
   worker 0 the third; the new block has two files. *)
Definition ex_sched : list (nat * (Z * Z)) := [(1%nat, (0, 2)); (0%nat, (2, 1))].
Lemma ex_processed : processed 2 3 2 ex_sched true.
Proof.
  right. split; [reflexivity|]. exists true. eexists _, _. split.
  { unfold c_start, s_head. cbn [repeat Z.ltb Z.compare].
    go (cs_send _ _ _ [_] _ _ _ _ _). go (cs_hand _ _ 0 2 [_] _ _ _ _ _ eq_refl). go (cs_send _ _ _ [] _ _ _ _ _).
    go (cs_handed _ _ _ _ [_] _ _ _ _ _ (or_introl eq_refl)). go (cs_hand _ _ 2 2 [] _ _ _ _ _ eq_refl).
    go (cs_sent _ _ _ [] _ _ _ _ (or_introl eq_refl)). go (cs_sent _ _ _ [_] _ _ _ _ (or_introl eq_refl)).
    go (cs_work _ _ _ [] _ _ _ _ _ _). go (cs_work _ _ _ [_] _ _ _ _ _ _). go (cs_done _ _ _ [_] _ _ _ _ _ _). go (cs_done _ _ _ [] _ _ _ _ _ _).
    go (cs_handed _ _ _ _ [] _ _ _ _ _ (or_introl eq_refl)). go (cs_kill _ _ [] _ _ _ _ _). go (cs_killed _ _ [] _ _ _ _ _ (or_introl eq_refl)).
    go (cs_kill _ _ [_] _ _ _ _ _). go (cs_killed _ _ [_] _ _ _ _ _ (or_introl eq_refl)). go (cs_end _ _ [_; _]).
    go (cs_send _ _ _ [] _ _ _ _ _). go (cs_send _ _ _ [_] _ _ _ _ _). go (cs_sent _ _ _ [] _ _ _ _ (or_introl eq_refl)). go (cs_sent _ _ _ [_] _ _ _ _ (or_introl eq_refl)).
    go (cs_die _ _ _ [] _ _ _ _). go (cs_die _ _ _ [_] _ _ _ _). apply cr_nil. }
  split.
  - intros [|[|[|k]]]; reflexivity.
  - intros _. split; [split; [reflexivity|repeat constructor]|repeat constructor].
Qed.
Example C75_example : g_clean ex_e /\ makeable ex_e ex_f1 (lit "d") (lit "x/y") (lit ">i4") 2 /\ layout_ok ex_sizes3 /\ rounds_ok LE (lit ">i4") 2 ex_sizes3 ex_rounds /\
  attr_bytes LE ex_rounds <= 2 ^ 61 /\ makeable ex_e ex_made (lit "n") (lit "z") (lit ">i4") 2 /\ ~ prefix_of (resolve (lit "d/x/y")) (resolve (lit "n/z")) /\
  processed 2 3 (16 / 8) ex_sched true /\
  match bigfile_copy_mpi ex_e ex_made (lit "d") (lit "n") (lit "x/y") (lit "z") 2 2 ex_sched with
  | Ret (0, [true; true], f2) =>
      match big_file_open_block ex_e f2 (lit "n") (lit "z") with
      | Ret (Some b) =>
          match big_block_read_simple ex_e f2 b 0 3 None with
          | Ret (0, Some (a, m)) => b_Nfile b = 2 /\ load m (a_data a) 24 = Some (concat ex_rows)
          | _ => False
          end
      | _ => False
      end
  | _ => False
  end.
Proof.
  destruct C54_example as (H1 & H2 & H3 & H4 & H5 & H6 & H7 & _). do 7 (split; [assumption|]). split; [exact ex_processed|]. vm_compute. split; reflexivity.
Qed.

(* A row of the old block was never written, a later one was. One worker fails
   to read the first; all processes return, the exit code is 0, and the new
   block lacks a row that the old one has. bigfile-copy exits with code 1. *)
Definition ex_one : array := mkArray 100 (lit "<i4") [1; 2] [16; 4] 2.
Definition ex_hole : fs := match make_and_use ex_e ex_f1 (lit "d") (lit "x/y") (lit ">i4") 2 ex_sizes3 [Rows [HWrite 2 ex_one ex_um]] with Ret (Some (_, g)) => g | _ => [] end.
Theorem C75_refuted : exists k s f2 b1 b2 a m,
  make_and_use ex_e ex_f1 (lit "d") (lit "x/y") (lit ">i4") 2 ex_sizes3 [Rows [HWrite 2 ex_one ex_um]] = Ret (Some (0, ex_hole)) /\
  cruns true 3 k (c_start 1 3 1) s /\ all_done s /\ map w_log (c_ws s) = [[(0, 1, false)]] /\
  bigfile_copy_mpi ex_e ex_hole (lit "d") (lit "n") (lit "x/y") (lit "z") 1 1 [(0%nat, (0, 1))] = Ret (0, [false], f2) /\
  big_file_open_block ex_e f2 (lit "d") (lit "x/y") = Ret (Some b1) /\ big_block_read_simple ex_e f2 b1 2 1 None = Ret (0, Some (a, m)) /\ load m (a_data a) 8 = Some (concat (firstn 2 ex_outs)) /\
  big_file_open_block ex_e f2 (lit "n") (lit "z") = Ret (Some b2) /\ big_block_read_simple ex_e f2 b2 2 1 None = Ret (-1, None) /\
  exists f3, bigfile_copy ex_e ex_hole (lit "d") (lit "n") (lit "x/y") (lit "z") 1 8 5 = Ret (1, f3).
Proof.
  eexists _, _, _, _, _, _, _. split; [vm_compute; reflexivity|]. split.
  { unfold c_start, s_head. cbn [repeat Z.ltb Z.compare].
    go (cs_send _ _ _ [] _ _ _ _ _). go (cs_hand _ _ 0 1 [] _ _ _ _ _ eq_refl). go (cs_handed _ _ _ _ [] _ _ _ _ _ (or_introl eq_refl)).
    go (cs_sent _ _ _ [] _ _ _ _ (or_introl eq_refl)). go (cs_work _ _ _ [] _ _ _ _ _ _). go (cs_fail _ _ _ [] _ _ _ _ _ _).
    go (cs_send _ _ _ [] _ _ _ _ _). go (cs_break _ _ _ _ [] _ _ _ _ _). go (cs_sent _ _ _ [] _ _ _ _ (or_introl eq_refl)).
    go (cs_kill _ _ [] _ _ _ _ _). go (cs_killed _ _ [] _ _ _ _ _ (or_introl eq_refl)). go (cs_end _ _ [_]). go (cs_die _ _ _ [] _ _ _ _).
    apply cr_nil. }
  split; [split; [reflexivity|repeat constructor]|]. split; [reflexivity|].
  split; [vm_compute; reflexivity|]. split; [vm_compute; reflexivity|]. split; [vm_compute; reflexivity|]. split; [vm_compute; reflexivity|]. split; [vm_compute; reflexivity|]. split; [vm_compute; reflexivity|].
  eexists. vm_compute. reflexivity.
Qed.
Print Assumptions C75_refuted.

(* ------------------------------------------------------------------ C76 *)
(* Full statement: bigfile-sample-mpi chooses rows of each piece of K rows, as
   many as the random numbers say, and the new block has these rows in their
   order, whatever the number of workers and their schedule. False if the
   random number of rows is larger than the piece, see below. Otherwise the
   chosen rows (parts, for each piece) are the same for every number of workers
   and every schedule, with ratio 1 they are all rows, and the new block has
   them. K is 2^20 in the program. *)
Theorem C76_sample_partial : forall e f path blk d nmemb sizes rs G all K,
  let dt := dtype_normalize (e_me e) d in let w := itemsize (e_me e) dt * nmemb in
  g_clean e -> makeable e f path blk d nmemb -> layout_ok sizes -> zlen sizes <= 2 ^ 24 ->
  rounds_ok (e_me e) dt nmemb sizes rs -> attr_bytes (e_me e) rs <= 2 ^ 61 -> fair G -> 0 < K < 2 ^ 62 ->
  exists f1 t M, make_and_use e f path blk d nmemb sizes rs = Ret (Some (0, f1)) /\
    lives (e_me e) dt nmemb (new_table sizes) (fun _ => None) rs t M /\
    forall rows, shows_all w t rows -> (forall x, In x (sample_plan G all K (t_size t)) -> k_nsel x <= k_chunk x) ->
    exists parts, zlen parts = (t_size t + K - 1) / K /\ map zlen parts = map k_nsel (sample_plan G all K (t_size t)) /\
      (forall i part, nth_error parts i = Some part -> subseq part (firstn (Z.to_nat K) (skipn (Z.to_nat (Z.of_nat i * K)) rows))) /\
      (all = true -> concat parts = rows) /\
    forall newpath newblk Nfile n sched finished,
    let N := if (Nfile =? -1) || (zlen (t_sizes t) =? 0) then zlen (t_sizes t) else Nfile in
    let kept f2 := (forall q x, ~ own_file (path_join newpath newblk) q -> fs_get f1 q = Some x -> fs_get f2 q = Some x) /\
      (forall q x, ~ own_file (path_join newpath newblk) q -> fs_get f1 q = None -> fs_get f2 q = Some x -> x = Dir /\ prefix_of q (resolve (path_join newpath newblk))) in
    makeable e f1 newpath newblk dt nmemb -> ~ prefix_of (resolve (path_join path blk)) (resolve (path_join newpath newblk)) ->
    (N = 0 /\ t_size t = 0 \/ 0 < N) -> N <= 2 ^ 24 -> t_size t * N < 2 ^ 64 -> t_size t * nmemb < 2 ^ 63 -> t_size t < 2 ^ 62 ->
    processed n (t_size t) K sched finished ->
    exists f2 sizes2, bigfile_sample_mpi G all K e f1 path newpath blk newblk Nfile n sched = Ret (0, repeat true (length sched), f2) /\
       zlen sizes2 = N /\ Forall (fun s => s = zlen (concat parts) / N \/ s = zlen (concat parts) / N + 1) sizes2 /\
       block_attrs e f2 newpath newblk M /\ kept f2 /\ (finished = true -> block_has e f2 newpath newblk dt nmemb sizes2 (concat parts)).
Proof.
  intros e f path blk d nmemb sizes rs G all K dt w Hg Hmk Hlo HN Hrs Hab HG HK.
  destruct (live e f path blk d nmemb sizes rs Hg Hmk Hlo HN Hrs Hab) as (f1 & t & M & dd & b0 & E & L & F & A & O & _).
  exists f1, t, M. split; [exact E|]. split; [exact L|]. intros rows Hsh Hq. pose proof (proj1 Hsh) as Z1. exists (sampled G all K rows).
  rewrite <- Z1 in Hq. pose proof (plan_facts G all K rows ltac:(lia) HG Hq) as PF. cbv beta in PF. pose proof (zlen_nonneg rows) as Hz.
  split. { unfold sampled. unfold zlen at 1. rewrite map_length. fold (zlen (sample_plan G all K (zlen rows))). unfold sample_plan. rewrite plan_count by lia. rewrite Z1, Z.sub_0_r. reflexivity. }
  split. { unfold sampled. rewrite map_map, <- Z1. apply map_ext_in. intros y Hy. apply In_nth_error in Hy. destruct Hy as (i & Hy). apply (PF i y Hy). }
  split.
  { intros i part Hi. unfold sampled in Hi. destruct (nth_error (sample_plan G all K (zlen rows)) i) as [y|] eqn:Ey.
    - rewrite (map_nth_error _ _ _ Ey) in Hi. injection Hi as <-. destruct (PF i y Ey) as (F1 & F2 & F3 & _).
      replace (firstn (Z.to_nat K) (skipn (Z.to_nat (Z.of_nat i * K)) rows)) with (firstn (Z.to_nat (k_chunk y)) (skipn (Z.to_nat (k_off y)) rows)); [apply pick_subseq|].
      rewrite <- F1. assert (Hlen : length (skipn (Z.to_nat (k_off y)) rows) = Z.to_nat (zlen rows - k_off y)) by (rewrite skipn_length; unfold zlen; lia).
      destruct (Z.le_gt_cases K (zlen rows - k_off y)); [f_equal; lia|]. rewrite !firstn_all2 by lia. reflexivity.
    - exfalso. apply nth_error_None in Ey. assert (Hx : (i < length (map (fun y => pick G (rg_set G (k_seed y)) (firstn (Z.to_nat (k_chunk y)) (skipn (Z.to_nat (k_off y)) rows)) (k_nsel y)) (sample_plan G all K (zlen rows))))%nat) by (apply nth_error_Some; congruence).
      rewrite map_length in Hx. lia. }
  split. { intros ->. apply sampled_full; [lia|exact HG]. }
  intros newpath newblk Nfile n sched fin N kept Hmk2 Hsep HN2 HN24 HsN Hsm H62 Hp. rewrite Z1 in Hq.
  assert (Hdn : dtype_normalize (e_me e) dt = dt) by apply Hmk. assert (Hbn : block_name (path_join path blk)) by apply Hmk.
  destruct (sample_mpi_run G all K e f1 path newpath blk newblk dt nmemb Nfile t dd b0 M rows n sched fin Hg Hbn O F A Hmk2 Hsep HK HG Hq HN2 HN24 HsN Hdn Hsh Hsm H62 Hp)
    as (f2 & E2 & K2 & A2 & (V1 & _ & V3) & H2).
  exists f2, (even_split (zlen (concat (sampled G all K rows))) N). split; [exact E2|]. split; [exact V1|]. split; [exact V3|]. split; [exact A2|]. split; [exact K2|exact H2].
Qed.
Print Assumptions C76_sample_partial.

(* A generator of random numbers; pieces of two rows; the second
   row of the first piece and the only one of the second are chosen. *)
Definition ex_rng : rng := mkRng Z (fun s => s) (fun s => (3 * s + 1, s + 1)) (fun s n => (Z.min 1 (Z.abs n), s + 1)) (fun s n => (s mod n, s + 1)).
Lemma ex_fair : fair ex_rng.
Proof. split; intros s n; cbn [ex_rng rg_uniform rg_poisson fst]; [intros Hn; apply Z.mod_pos_bound; exact Hn|]. lia. Qed.
Example C76_example : g_clean ex_e /\ makeable ex_e ex_f1 (lit "d") (lit "x/y") (lit ">i4") 2 /\ layout_ok ex_sizes3 /\ rounds_ok LE (lit ">i4") 2 ex_sizes3 ex_rounds /\
  attr_bytes LE ex_rounds <= 2 ^ 61 /\ makeable ex_e ex_made (lit "n") (lit "z") (lit ">i4") 2 /\ ~ prefix_of (resolve (lit "d/x/y")) (resolve (lit "n/z")) /\
  processed 2 3 2 ex_sched true /\ fair ex_rng /\ map k_nsel (sample_plan ex_rng false 2 3) = [1; 1] /\ Forall (fun x => k_nsel x <= k_chunk x) (sample_plan ex_rng false 2 3) /\
  match bigfile_sample_mpi ex_rng false 2 ex_e ex_made (lit "d") (lit "n") (lit "x/y") (lit "z") 2 2 ex_sched with
  | Ret (0, [true; true], f2) =>
      match big_file_open_block ex_e f2 (lit "n") (lit "z") with
      | Ret (Some b) =>
          match big_block_read_simple ex_e f2 b 0 2 None with
          | Ret (0, Some (a, m)) => b_Nfile b = 2 /\ load m (a_data a) 16 = Some (concat (skipn 1 ex_rows))
          | _ => False
          end
      | _ => False
      end
  | _ => False
  end.
Proof.
  destruct C54_example as (H1 & H2 & H3 & H4 & H5 & H6 & H7 & _). do 7 (split; [assumption|]). split; [exact ex_processed|]. split; [exact ex_fair|].
  split; [vm_compute; reflexivity|]. split; [vm_compute; repeat constructor; discriminate|]. vm_compute. split; reflexivity.
Qed.

(* The Poisson distribution has no upper bound. If the number for a piece is
   larger than the piece, the worker calls abort. *)
Definition ex_rng2 : rng := mkRng Z (fun s => s) (fun s => (3 * s + 1, s + 1)) (fun s n => (Z.abs n + 1, s + 1)) (fun s n => (s mod n, s + 1)).
Theorem C76_refuted : fair ex_rng2 /\ (exists s, cruns true 3 6 (c_start 1 3 2) s /\ map w_log (c_ws s) = [[(0, 2, true)]]) /\
  bigfile_sample_mpi ex_rng2 false 2 ex_e ex_made (lit "d") (lit "n") (lit "x/y") (lit "z") 1 1 [(0%nat, (0, 2))] = Undef AbortCall.
Proof.
  split; [split; intros s n; cbn [ex_rng2 rg_uniform rg_poisson fst]; [intros Hn; apply Z.mod_pos_bound; exact Hn|lia]|]. split.
  - eexists. split.
    { unfold c_start, s_head. cbn [repeat Z.ltb Z.compare].
      go (cs_send _ _ _ [] _ _ _ _ _). go (cs_hand _ _ 0 2 [] _ _ _ _ _ eq_refl). go (cs_handed _ _ _ _ [] _ _ _ _ _ (or_introl eq_refl)).
      go (cs_sent _ _ _ [] _ _ _ _ (or_introl eq_refl)). go (cs_work _ _ _ [] _ _ _ _ _ _). go (cs_done _ _ _ [] _ _ _ _ _ _). apply cr_nil. }
    reflexivity.
  - vm_compute. reflexivity.
Qed.
Print Assumptions C76_refuted.
