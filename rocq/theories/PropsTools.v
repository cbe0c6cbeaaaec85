(* Properties C67, C68, C69: bigfile-cat, bigfile-set-attr, numbers as text. *)
From Coq.Strings Require Import Byte String.
From Coq Require Import List ZArith Lia Bool ZifyBool.
From Verif Require Import Base BaseFacts Dtype Cast CastSpec CastFacts Array FS Fmt Attr Block File Spec AttrSpec OpenSpec SessSpec HistSpec FileSpec PySpec Util UtilSpec Tools ToolsSpec
  FSFacts FileFacts WriteFacts AttrFacts HistFacts PyNewFacts UtilFacts CopyFacts ToolsFacts DtypeFacts Ex PropsHeader PropsAttr PropsHist PropsFile PropsPy PropsUtil.
Import ListNotations.
Open Scope Z_scope.
Ltac Zify.zify_post_hook ::= Z.div_mod_to_equations.

(* ------------------------------------------------------------------ C67 *)
(* Full statement: bigfile-cat -b -o start -c count prints the bytes of exactly
   the rows asked for, start up to start + count (without -c, or past the end:
   up to the end of the block), and changes no file.
   False: the last read is not cut at the rows asked for, so up to a buffer
   more is printed, see below. Proved: the rows printed are those from start
   to last_row. If one of them was never written (and is not before a written
   row of its file) the exit code is 1 and the output ends before it. Also
   assumed: the buffer holds a row. *)
Theorem C67_cat_partial : forall e f path blk d nmemb sizes rs,
  let dt := dtype_normalize (e_me e) d in let w := itemsize (e_me e) dt * nmemb in
  g_clean e -> makeable e f path blk d nmemb -> layout_ok sizes -> zlen sizes <= 2 ^ 24 ->
  rounds_ok (e_me e) dt nmemb sizes rs -> attr_bytes (e_me e) rs <= 2 ^ 61 ->
  exists f1 t M, make_and_use e f path blk d nmemb sizes rs = Ret (Some (0, f1)) /\
    lives (e_me e) dt nmemb (new_table sizes) (fun _ => None) rs t M /\
    forall start count buffersize fuel,
    let n := rows_asked (t_size t) start count in
    let last := last_row (t_size t) start n (Z.min (buffersize / w) n) in
    t_size t * nmemb < 2 ^ 63 -> 0 <= start < 2 ^ 62 -> -1 <= count < 2 ^ 62 -> w <= buffersize < 2 ^ 63 -> t_size t < Z.of_nat fuel ->
    (forall rows, zlen rows = last - start -> shows_from w t start rows ->
       bigfile_cat e false f1 path blk start count buffersize fuel = Ret (0, concat rows, f1)) /\
    ((exists r, start <= r < last /\ absent t r) ->
       exists rows, bigfile_cat e false f1 path blk start count buffersize fuel = Ret (1, concat rows, f1) /\
         shows_from w t start rows /\ start + zlen rows <= last).
Proof.
  intros e f path blk d nmemb sizes rs dt w Hg Hmk Hlo HN Hrs Hab.
  destruct (live e f path blk d nmemb sizes rs Hg Hmk Hlo HN Hrs Hab) as (f1 & t & M & dd & b0 & E & L & F & A & O & _).
  exists f1, t, M. split; [exact E|]. split; [exact L|]. intros start count bs fuel n last Hsm Hs Hc Hbs Hfu.
  destruct Hmk as [_ _ Mn _ _ Mi Mt Md Mc Mw]. fold dt in Mt, Md, Mc, Mw.
  destruct (cat_main e f1 path blk dt nmemb t dd b0 false (fun rows s => s = concat rows) Mn Mt Mi Mc Mw Md Hsm O F eq_refl
    ltac:(intros r1 t1 r2 t2 H1 H2; cbv beta in H1, H2; rewrite H1, H2; symmetry; apply concat_app)
    ltac:(intros b rows m Eb En _ HF Hl; exists (concat rows); split; [eapply cat_binary; eauto; lia|reflexivity])
    start count bs fuel Hs Hc Hbs Hfu) as [H1 H2].
  split.
  - intros rows Hr Hsh. destruct (H1 rows Hr Hsh) as (s & Es & ->). exact Es.
  - intros Hr. destruct (H2 Hr) as (rows & s & Es & -> & Hsh). exists rows. auto.
Qed.

(* Text output, for integer types: one line per row, every element in decimal
   notation and followed by a blank. *)
Theorem C67_text_partial : forall e f path blk d nmemb sizes rs width signed,
  let dt := dtype_normalize (e_me e) d in let w := itemsize (e_me e) dt * nmemb in
  g_clean e -> makeable e f path blk d nmemb -> layout_ok sizes -> zlen sizes <= 2 ^ 24 ->
  rounds_ok (e_me e) dt nmemb sizes rs -> attr_bytes (e_me e) rs <= 2 ^ 61 -> int_type dt width signed ->
  exists f1 t M, make_and_use e f path blk d nmemb sizes rs = Ret (Some (0, f1)) /\
    lives (e_me e) dt nmemb (new_table sizes) (fun _ => None) rs t M /\
    forall start count buffersize fuel,
    let n := rows_asked (t_size t) start count in
    let last := last_row (t_size t) start n (Z.min (buffersize / w) n) in
    t_size t * nmemb < 2 ^ 63 -> 0 <= start < 2 ^ 62 -> -1 <= count < 2 ^ 62 -> w <= buffersize < 2 ^ 63 -> t_size t < Z.of_nat fuel ->
    (forall rows, zlen rows = last - start -> shows_from w t start rows ->
       exists s, bigfile_cat e true f1 path blk start count buffersize fuel = Ret (0, s, f1) /\ rows_text dt width signed rows s) /\
    ((exists r, start <= r < last /\ absent t r) ->
       exists rows s, bigfile_cat e true f1 path blk start count buffersize fuel = Ret (1, s, f1) /\ rows_text dt width signed rows s /\
         shows_from w t start rows /\ start + zlen rows <= last).
Proof.
  intros e f path blk d nmemb sizes rs wd sg dt w Hg Hmk Hlo HN Hrs Hab Hit.
  destruct (live e f path blk d nmemb sizes rs Hg Hmk Hlo HN Hrs Hab) as (f1 & t & M & dd & b0 & E & L & F & A & O & _).
  exists f1, t, M. split; [exact E|]. split; [exact L|]. intros start count bs fuel n last Hsm Hs Hc Hbs Hfu.
  destruct Hmk as [_ _ Mn _ _ Mi Mt Md Mc Mw]. fold dt in Mt, Md, Mc, Mw.
  exact (cat_main e f1 path blk dt nmemb t dd b0 true (rows_text dt wd sg) Mn Mt Mi Mc Mw Md Hsm O F (rt_nil _ _ _)
    (rows_text_app dt wd sg)
    ltac:(intros b rows m Eb En Hz HF Hl; apply (cat_text e dt nmemb wd sg b rows m (proj1 Mi) Hit Eb En Hz HF Hl))
    start count bs fuel Hs Hc Hbs Hfu).
Qed.

(* When last_row is the end of the rows asked for: they fit the buffer, or run
   to the end of the block, or are a whole number of buffers. *)
Theorem C67_exact_partial : forall T start count w buffersize, 0 < w <= buffersize -> 0 <= start <= T ->  -1 <= count ->
  let n := rows_asked T start count in
  n * w <= buffersize \/ start + n = T \/ (exists k, n = k * (buffersize / w)) ->
  last_row T start n (Z.min (buffersize / w) n) = start + n.
Proof.
  intros T start count w bs Hw Hs Hc n H. assert (Hn : 0 <= n /\ start + n <= T) by (unfold n, rows_asked; destruct (count =? -1) eqn:E1; cbn [orb]; [lia|]; destruct (T <? start + count) eqn:E2; lia). clearbody n.
  unfold last_row. destruct (n <=? 0) eqn:En; [lia|]. assert (Hb : 1 <= bs / w) by (apply Z.div_le_lower_bound; lia).
  set (q := bs / w) in *. destruct H as [H|[H|[k H]]].
  - assert (n <= q) by (unfold q; apply Z.div_le_lower_bound; [lia|rewrite Z.mul_comm; exact H]). clearbody q. rewrite (Z.min_r q n) by lia.
    replace ((n + n - 1) / n) with 1; [lia|]. apply (Z.div_unique _ _ _ (n - 1)); lia.
  - clearbody q. set (c := Z.min q n). assert (Hc1 : 1 <= c) by lia. assert (n <= (n + c - 1) / c * c); [|lia].
    pose proof (Z.div_mod (n + c - 1) c ltac:(lia)). pose proof (Z.mod_pos_bound (n + c - 1) c ltac:(lia)). lia.
  - assert (Hk : 1 <= k) by (clearbody q; nia). rewrite (Z.min_l q n) by (clearbody q; nia).
    replace ((n + q - 1) / q) with k; [lia|]. apply (Z.div_unique _ _ _ (q - 1)); clearbody q; lia.
Qed.

(* With a buffer smaller than a row it never ends. *)
Theorem C67_small_buffer : forall e f path blk d nmemb sizes rs,
  let dt := dtype_normalize (e_me e) d in
  g_clean e -> makeable e f path blk d nmemb -> layout_ok sizes -> zlen sizes <= 2 ^ 24 ->
  rounds_ok (e_me e) dt nmemb sizes rs -> attr_bytes (e_me e) rs <= 2 ^ 61 ->
  exists f1 t M, make_and_use e f path blk d nmemb sizes rs = Ret (Some (0, f1)) /\
    lives (e_me e) dt nmemb (new_table sizes) (fun _ => None) rs t M /\
    forall humane start count buffersize fuel, 0 <= start < 2 ^ 62 -> -1 <= count < 2 ^ 62 -> 0 <= buffersize < itemsize (e_me e) dt * nmemb ->
    0 < rows_asked (t_size t) start count -> bigfile_cat e humane f1 path blk start count buffersize fuel = Diverge.
Proof.
  intros e f path blk d nmemb sizes rs dt Hg Hmk Hlo HN Hrs Hab.
  destruct (live e f path blk d nmemb sizes rs Hg Hmk Hlo HN Hrs Hab) as (f1 & t & M & dd & b0 & E & L & F & A & O & _).
  exists f1, t, M. split; [exact E|]. split; [exact L|]. intros humane start count bs fuel Hs Hc Hbs Hn.
  destruct Hmk as [_ _ Mn _ _ Mi Mt Md Mc Mw]. fold dt in Mt, Md, Mc, Mw. eapply cat_stuck; eauto.
Qed.

(* Six rows of 8 bytes. *)
Definition ex_six : list round := [Attrs ex_sops; Rows [HWrite 0 ex_a ex_um; HWrite 3 ex_a ex_um]].
Definition ex_six_made : fs := match make_and_use ex_e ex_f1 (lit "d") (lit "x/y") (lit ">i4") 2 [4; 2] ex_six with Ret (Some (_, g)) => g | _ => [] end.
Lemma ex_g : g_clean ex_e.
Proof. intros z. repeat constructor; intro H; discriminate H. Qed.
Lemma ex_six_ok : rounds_ok LE (lit ">i4") 2 [4; 2] ex_six /\ attr_bytes LE ex_six <= 2 ^ 61.
Proof.
  split; [|vm_compute; congruence]. unfold ex_six. cbn [rounds_ok]. split; [repeat apply Forall_cons; try apply Forall_nil; slegal|]. split; [|exact I].
  cbn [history_ok sizes_after fold_left]. hist_tac.
Qed.
(* Three rows asked for, four printed. *)
Theorem C67_refuted : exists e f path blk d nmemb sizes rs f1 s, makeable e f path blk d nmemb /\
  rounds_ok (e_me e) (dtype_normalize (e_me e) d) nmemb sizes rs /\ make_and_use e f path blk d nmemb sizes rs = Ret (Some (0, f1)) /\ zsum sizes = 6 /\
  itemsize (e_me e) d * nmemb = 8 /\ bigfile_cat e false f1 path blk 0 3 16 100 = Ret (0, s, f1) /\ zlen s = 4 * 8.
Proof.
  exists ex_e, ex_f1, (lit "d"), (lit "x/y"), (lit ">i4"), 2, [4; 2], ex_six, ex_six_made,
    (match bigfile_cat ex_e false ex_six_made (lit "d") (lit "x/y") 0 3 16 100 with Ret (_, s, _) => s | _ => [] end).
  split; [exact ex_makeable2|]. split; [exact (proj1 ex_six_ok)|]. split; [vm_compute; reflexivity|]. split; [reflexivity|]. split; [reflexivity|].
  split; vm_compute; reflexivity.
Qed.
Example C67_example : g_clean ex_e /\ makeable ex_e ex_f1 (lit "d") (lit "x/y") (lit ">i4") 2 /\ layout_ok [4; 2] /\ rounds_ok LE (lit ">i4") 2 [4; 2] ex_six /\
  attr_bytes LE ex_six <= 2 ^ 61 /\ int_type (lit ">i4") 32 true /\ rows_asked 6 1 4 = 4 /\ last_row 6 1 4 (Z.min (16 / 8) 4) = 5 /\
  (exists s, bigfile_cat ex_e true ex_six_made (lit "d") (lit "x/y") 1 4 16 100 = Ret (0, s, ex_six_made) /\ firstn 21 s = lit "1365539216 421802304 ").
Proof.
  split; [exact ex_g|]. split; [exact ex_makeable2|]. split; [split; [|split]; [repeat constructor; ex_neg|reflexivity|reflexivity]|]. destruct ex_six_ok as [H1 H2].
  split; [exact H1|]. split; [exact H2|]. split; [constructor; right; reflexivity|]. split; [reflexivity|]. split; [reflexivity|].
  eexists. split; vm_compute; reflexivity.
Qed.

(* ------------------------------------------------------------------ C69 *)
(* Full statement: for every element type other than the floating point ones,
   printing an element gives its value in decimal notation and leaves the
   element alone; reading any decimal notation of a value of the type stores
   that value; so what is printed reads back to the same bytes.
   False for the type b1, which cannot be read, and for elements not in the
   byte order of the machine, which printing reverses in place; see below. *)
Theorem C69_format_partial : forall fg me m x d width signed v, int_type (dtype_normalize me d) width signed -> load m x (Z.to_nat (itemsize me d)) = Some v ->
  exists t m', dtype_format fg me m x d = Ret (t, m') /\ numeral t (int_value (dtype_normalize me d) width signed v) /\
    (forall y, ~ (x <= y < x + itemsize me d) -> m' y = m y) /\
    (dt_native me (dtype_normalize me d) = true -> load m' x (Z.to_nat (itemsize me d)) = Some v).
Proof.
  intros fg me m x d w s v H Hl. destruct (format_elem fg me m x d w s v H Hl) as (m' & E & Fr & L). pose proof (int_width me _ _ _ H) as Hw. rewrite itemsize_normalize in Hw.
  eexists _, m'. split; [exact E|]. split; [|split; [exact Fr|]].
  - apply print_numeral. eapply int_small; [exact H|]. apply int_value_range; [exact H|]. apply load_length in Hl. rewrite Hl. f_equal. rewrite <- Hw, Z.div_mul; lia.
  - intros Hn. rewrite L. unfold reorder. rewrite Hn. reflexivity.
Qed.
Theorem C69_parse_partial : forall sc me d width signed t z m x, int_type (dtype_normalize me d) width signed -> suffix (dtype_normalize me d) <> lit "b1" ->
  number t z -> in_type width signed z -> (forall y, x <= y < x + itemsize me d -> m y <> None) ->
  exists m' v, dtype_parse sc me t d m x = Ret (0, m') /\ load m' x (Z.to_nat (itemsize me d)) = Some v /\ int_value (dtype_normalize me d) width signed v = z /\
    (forall y, ~ (x <= y < x + itemsize me d) -> m' y = m y).
Proof. exact parse_elem. Qed.
Theorem C69_round_trip_partial : forall fg sc me m x d width signed v m2 x2, int_type (dtype_normalize me d) width signed -> suffix (dtype_normalize me d) <> lit "b1" ->
  load m x (Z.to_nat (itemsize me d)) = Some v -> (forall y, x2 <= y < x2 + itemsize me d -> m2 y <> None) ->
  exists t m' m2', dtype_format fg me m x d = Ret (t, m') /\ dtype_parse sc me t d m2 x2 = Ret (0, m2') /\ load m2' x2 (Z.to_nat (itemsize me d)) = Some v.
Proof.
  intros fg sc me m x d w s v m2 x2 H Hb Hl Hm. destruct (C69_format_partial fg me m x d w s v H Hl) as (t & m' & E & N & _).
  pose proof (int_width me _ _ _ H) as Hw. rewrite itemsize_normalize in Hw. assert (Hwd : Z.to_nat (w / 8) = Z.to_nat (itemsize me d)) by (rewrite <- Hw, Z.div_mul; lia).
  assert (Hr : in_type w s (int_value (dtype_normalize me d) w s v)) by (apply int_value_range; [exact H|]; apply load_length in Hl; congruence).
  destruct (parse_elem sc me d w s t _ m2 x2 H Hb (numeral_number _ _ N) Hr Hm) as (m2' & v' & E2 & L2 & V & _).
  exists t, m', m2'. split; [exact E|]. split; [exact E2|]. rewrite L2. f_equal. apply load_length in Hl. apply load_length in L2.
  eapply int_value_inj; eauto; congruence.
Qed.
Definition ex_cell (v : bytes) : mem := fun x => nth_error v (Z.to_nat x).
Definition ex_fg (_ : Z) : bytes := lit "0".
Definition ex_sc : fscan := mkScan (fun _ => None) (fun _ => None).
(* The number -300 in the other byte order; reading "-0300". *)
Example C69_example : int_type (dtype_normalize LE (lit ">i4")) 32 true /\ suffix (dtype_normalize LE (lit ">i4")) <> lit "b1" /\
  load (ex_cell [xff; xff; xfe; xd4]) 0 4 = Some [xff; xff; xfe; xd4] /\ number (lit "-0300") (-300) /\ in_type 32 true (-300) /\
  (match dtype_format ex_fg LE (ex_cell [xff; xff; xfe; xd4]) 0 (lit ">i4") with Ret (t, _) => t | _ => [] end) = lit "-300" /\
  (match dtype_parse ex_sc LE (lit "-0300") (lit ">i4") (ex_cell [x00; x00; x00; x00]) 0 with Ret (_, m) => load m 0 4 | _ => None end) = Some [xff; xff; xfe; xd4].
Proof.
  split; [constructor; right; reflexivity|]. split; [discriminate|]. split; [reflexivity|]. split.
  { exists true, (lit "0300"). split; [reflexivity|]. split; [discriminate|]. split; [repeat constructor; vm_compute; discriminate|reflexivity]. }
  split; [unfold in_type; lia|]. split; vm_compute; reflexivity.
Qed.
(* A b1 element is printed but cannot be read: code -1, nothing is stored. *)
Theorem C69_bool_refuted : forall fg sc me m x d v, suffix (dtype_normalize me d) = lit "b1" -> int_type (dtype_normalize me d) 8 true ->
  load m x (Z.to_nat (itemsize me d)) = Some v -> exists t m', dtype_format fg me m x d = Ret (t, m') /\ numeral t (int_value (dtype_normalize me d) 8 true v) /\
    forall m2 x2, dtype_parse sc me t d m2 x2 = Ret (-1, m2).
Proof.
  intros fg sc me m x d v Hb H Hl. destruct (C69_format_partial fg me m x d 8 true v H Hl) as (t & m' & E & N & _). exists t, m'. split; [exact E|]. split; [exact N|].
  intros m2 x2. unfold dtype_parse. destruct (int_native me d 8 true H) as (_ & Hs & _). unfold parse_native. rewrite Hs, Hb. reflexivity.
Qed.
(* Printing twice an element in the other byte order prints two numbers. *)
Theorem C69_unchanged_refuted : exists fg me m x d t1 m1 t2 m2, int_type (dtype_normalize me d) 32 true /\
  dtype_format fg me m x d = Ret (t1, m1) /\ dtype_format fg me m1 x d = Ret (t2, m2) /\ t1 = lit "1" /\ t2 = lit "16777216".
Proof.
  exists ex_fg, LE, (ex_cell [x00; x00; x00; x01]), 0, (lit ">i4"). destruct (dtype_format ex_fg LE (ex_cell [x00; x00; x00; x01]) 0 (lit ">i4")) as [[t1 m1]|u|] eqn:E1.
  - destruct (format_elem ex_fg LE (ex_cell [x00; x00; x00; x01]) 0 (lit ">i4") 32 true [x00; x00; x00; x01] ltac:(constructor; right; reflexivity) eq_refl) as (m1' & E1' & _ & L1).
    rewrite E1 in E1'. injection E1' as -> ->. destruct (format_elem ex_fg LE m1' 0 (lit ">i4") 32 true _ ltac:(constructor; right; reflexivity) L1) as (m2 & E2 & _ & _).
    exists (print_signed (int_value (dtype_normalize LE (lit ">i4")) 32 true [x00; x00; x00; x01])), m1'. eexists _, m2. split; [constructor; right; reflexivity|]. split; [reflexivity|]. split; [exact E2|].
    split; vm_compute; reflexivity.
  - vm_compute in E1. discriminate E1.
  - vm_compute in E1. discriminate E1.
Qed.

Print Assumptions C67_cat_partial.
Print Assumptions C67_text_partial.
Print Assumptions C67_exact_partial.
Print Assumptions C67_small_buffer.
Print Assumptions C67_refuted.
Print Assumptions C69_format_partial.
Print Assumptions C69_parse_partial.
Print Assumptions C69_round_trip_partial.
Print Assumptions C69_bool_refuted.
Print Assumptions C69_unchanged_refuted.

(* ------------------------------------------------------------------ C68 *)
(* Full statement: bigfile-set-attr gives the attribute the values on the
   command line, with the type asked for or else the type it has, and the
   number of elements given, asked for or else the number of values; the other
   attributes and the rows stay as they are.
   Proved if the type is given (-t), of the machine's byte order, an integer
   type other than b1, and the number of elements is given (-n) or the
   attribute exists and is not removed first (-f); otherwise it fails, see
   below. The block is any block made through the library; t and M are its
   rows and attributes. No file but the attribute file of the block changes. *)
Lemma word_tok t : word t -> has_blank t = false /\ nul_free t.
Proof.
  intros [H1 H2]. apply TextFacts.tok_no_blank. split; [exact H1|]. eapply Forall_impl; [|exact H2]. intros c (A & B & C & D). split; [|auto].
  unfold isblank. apply orb_false_iff. split; apply byte_eqb_neq; assumption.
Qed.
Lemma int_word d w s : int_type d w s -> word d.
Proof. intros H. split; [inversion H; discriminate|]. inversion H; subst; (constructor; [destruct H0 as [->| ->]; repeat split; discriminate|]); repeat constructor; discriminate. Qed.
Theorem C68_set_partial : forall e f path blk d0 nmemb sizes rs,
  let dt := dtype_normalize (e_me e) d0 in
  g_clean e -> makeable e f path blk d0 nmemb -> layout_ok sizes -> zlen sizes <= 2 ^ 24 ->
  rounds_ok (e_me e) dt nmemb sizes rs -> attr_bytes (e_me e) rs <= 2 ^ 61 ->
  exists f1 t M, make_and_use e f path blk d0 nmemb sizes rs = Ret (Some (0, f1)) /\
    lives (e_me e) dt nmemb (new_table sizes) (fun _ => None) rs t M /\
    forall sc (force : bool) d count name args zs width signed,
    let nd := dtype_normalize (e_me e) d in
    int_type nd width signed -> suffix nd <> lit "b1" -> dt_native (e_me e) nd = true -> word name ->
    args <> [] -> Forall2 number args zs -> Forall (in_type width signed) zs ->
    count = zlen args \/ count = 0 /\ force = false /\ (exists v, M name = Some v /\ av_nmemb v = zlen args) ->
    itemsize (e_me e) d * zlen args < 2 ^ 30 -> attr_bytes (e_me e) rs + (itemsize (e_me e) d * zlen args + zlen name + 1) <= 2 ^ 61 ->
    exists f2 vs, bigfile_set_attr e sc f1 path blk force (Some d) count name args = Ret (0, f2) /\
      Forall2 (fun v z => length v = Z.to_nat (itemsize (e_me e) d) /\ int_value nd width signed v = z) vs zs /\
      block_attrs e f2 path blk (with_attr M name (Some (mkAval nd (zlen args) (concat vs)))) /\
      forall q, q <> attr2_path (path_join path blk) -> fs_get f2 q = fs_get f1 q.
Proof.
  intros e f path blk d0 nmemb sizes rs dt Hg Hmk Hlo HN Hrs Hab.
  destruct (live_bytes e f path blk d0 nmemb sizes rs Hg Hmk Hlo HN Hrs Hab) as (f1 & t & M & dd & b0 & E & L & F & A & O & _).
  exists f1, t, M. split; [exact E|]. split; [exact L|]. intros sc force d count name args zs wd sg nd Hit Hb1 Hnat Hword Hargs Hnum Hin Hcount H30 HB.
  destruct Hmk as [_ _ Mn _ _ Mi Mt Md Mc Mw]. fold dt in Mt, Md, Mc, Mw. destruct (word_tok _ Hword) as [Hbl Hnf].
  pose proof (int_width (e_me e) _ _ _ Hit) as Hw. unfold nd in Hw. rewrite itemsize_normalize in Hw. assert (Hi : 0 < itemsize (e_me e) d) by (inversion Hit; lia).
  assert (Hz : 0 < zlen args) by (destruct args; [contradiction|rewrite zlen_cons; pose proof (zlen_nonneg args); lia]).
  destruct (parse_args_ok sc (e_me e) d wd sg Hit Hb1 args zs Hnum Hin (malloc_mem 0 (itemsize (e_me e) d * zlen args)) 0) as (m & vs & Ep & Hvs & Hl & _).
  { intros y Hy. unfold malloc_mem. replace ((0 <=? y) && (y <? 0 + itemsize (e_me e) d * zlen args)) with true by lia. discriminate. }
  assert (Hl' : load m 0 (Z.to_nat (zlen args * itemsize (e_me e) d)) = Some (concat vs)) by (rewrite Z.mul_comm; exact Hl).
  assert (Hsv : sval (e_me e) m 0 d (zlen args) = mkAval nd (zlen args) (concat vs)) by (unfold sval; rewrite Hl'; reflexivity).
  assert (Hkind : Byte.eqb (dtype_kind (e_me e) d) "S" = false).
  { unfold dtype_kind. unfold nd in Hit. inversion Hit as [c X Y|c X Y|c X Y|c X Y|c X Y]; rewrite <- Y in *; reflexivity. }
  destruct (set_given e sc f1 path blk dt nmemb (attr_bytes (e_me e) rs) t dd b0 M force d count name args (zlen args) m Hg Mn Mt Mi Mw O F A Hargs) as (f2 & b2 & E2 & O2 & (dd2 & F2 & A2) & Fr).
  - destruct Hcount as [->|(-> & -> & v & Hv & Hvn)].
    + replace (zlen args =? 0) with false by lia. destruct (if force then None else M name); reflexivity.
    + rewrite Hv. exact Hvn.
  - exact Hz.
  - split.
    + split; [exact Hnf|]. split; [exact Hi|]. split; [lia|]. split; [lia|]. exists (concat vs). exact Hl'.
    + intros _. rewrite Hsv. constructor; cbn [av_dtype av_nmemb av_data]; auto.
      * apply int_word in Hit. exact Hit.
      * nia.
      * apply load_length in Hl. unfold zlen at 1. rewrite Hl. lia.
  - exact Hbl.
  - intros m0 ->. rewrite Hkind. split; [reflexivity|exact Ep].
  - exact HB.
  - exists f2, vs. split; [exact E2|]. split; [exact Hvs|]. split; [|exact Fr].
    destruct (fresh_attrs e _ dt nmemb _ _ _ _ _ _ F2 (fun k => A2 k)) as (names & A1 & A3 & A4 & A5). rewrite Hsv in *. exists b2, names. split; [exact O2|]. auto.
Qed.

(* A string: the type S1, one element per character and one for the NUL. *)
Theorem C68_string_partial : forall e f path blk d0 nmemb sizes rs,
  let dt := dtype_normalize (e_me e) d0 in
  g_clean e -> makeable e f path blk d0 nmemb -> layout_ok sizes -> zlen sizes <= 2 ^ 24 ->
  rounds_ok (e_me e) dt nmemb sizes rs -> attr_bytes (e_me e) rs <= 2 ^ 61 ->
  exists f1 t M, make_and_use e f path blk d0 nmemb sizes rs = Ret (Some (0, f1)) /\
    lives (e_me e) dt nmemb (new_table sizes) (fun _ => None) rs t M /\
    forall sc (force : bool) d count name text,
    let nd := dtype_normalize (e_me e) d in
    nd = machine_char (e_me e) :: lit "S1" -> word name ->
    count = zlen text + 1 \/ count = 0 /\ force = false /\ (exists v, M name = Some v /\ av_nmemb v = zlen text + 1) ->
    zlen text + 1 < 2 ^ 30 -> attr_bytes (e_me e) rs + (zlen text + 1 + zlen name + 1) <= 2 ^ 61 ->
    exists f2, bigfile_set_attr e sc f1 path blk force (Some d) count name [text] = Ret (0, f2) /\
      block_attrs e f2 path blk (with_attr M name (Some (mkAval nd (zlen text + 1) (text ++ [x00])))) /\
      forall q, q <> attr2_path (path_join path blk) -> fs_get f2 q = fs_get f1 q.
Proof.
  intros e f path blk d0 nmemb sizes rs dt Hg Hmk Hlo HN Hrs Hab.
  destruct (live_bytes e f path blk d0 nmemb sizes rs Hg Hmk Hlo HN Hrs Hab) as (f1 & t & M & dd & b0 & E & L & F & A & O & _).
  exists f1, t, M. split; [exact E|]. split; [exact L|]. intros sc force d count name text nd Hnd Hword Hcount H30 HB.
  destruct Hmk as [_ _ Mn _ _ Mi Mt Md Mc Mw]. fold dt in Mt, Md, Mc, Mw. destruct (word_tok _ Hword) as [Hbl Hnf]. pose proof (zlen_nonneg text).
  assert (Hi : itemsize (e_me e) d = 1) by (rewrite <- itemsize_normalize; fold nd; rewrite Hnd; destruct (e_me e); reflexivity).
  assert (Hnat : dt_native (e_me e) nd = true) by (rewrite Hnd; destruct (e_me e); reflexivity).
  assert (Hwd : word nd) by (rewrite Hnd; split; [discriminate|destruct (e_me e); repeat constructor; discriminate]).
  assert (Hkind : Byte.eqb (dtype_kind (e_me e) d) "S" = true) by (unfold dtype_kind; fold nd; rewrite Hnd; reflexivity).
  set (m0 := malloc_mem 0 (zlen text + 1)). assert (Hst : exists m, store m0 0 (text ++ [x00]) = Some m).
  { apply store_some. intros y Hy. rewrite app_length in Hy. cbn [length] in Hy. unfold m0, malloc_mem. replace ((0 <=? 0 + Z.of_nat y) && (0 + Z.of_nat y <? 0 + (zlen text + 1))) with true by (unfold zlen; lia). discriminate. }
  destruct Hst as (m & Hst).
  assert (Hl : load m 0 (Z.to_nat ((zlen text + 1) * itemsize (e_me e) d)) = Some (text ++ [x00])).
  { replace (Z.to_nat ((zlen text + 1) * itemsize (e_me e) d)) with (length (text ++ [x00])) by (rewrite Hi, app_length; cbn [length]; unfold zlen; lia). eapply load_store_same. exact Hst. }
  assert (Hsv : sval (e_me e) m 0 d (zlen text + 1) = mkAval nd (zlen text + 1) (text ++ [x00])) by (unfold sval; rewrite Hl; reflexivity).
  destruct (set_given e sc f1 path blk dt nmemb (attr_bytes (e_me e) rs) t dd b0 M force d count name [text] (zlen text + 1) m Hg Mn Mt Mi Mw O F A ltac:(discriminate)) as (f2 & b2 & E2 & O2 & (dd2 & F2 & A2) & Fr).
  - destruct Hcount as [->|(-> & -> & v & Hv & Hvn)].
    + replace (zlen text + 1 =? 0) with false by lia. destruct (if force then None else M name); reflexivity.
    + rewrite Hv. exact Hvn.
  - lia.
  - split.
    + split; [exact Hnf|]. split; [lia|]. split; [lia|]. split; [lia|]. exists (text ++ [x00]). exact Hl.
    + intros _. rewrite Hsv. constructor; cbn [av_dtype av_nmemb av_data]; auto; [lia|]. rewrite zlen_app. change (zlen [x00]) with 1. lia.
  - exact Hbl.
  - intros m1 ->. rewrite Hkind. cbn [hd]. split; [reflexivity|]. rewrite Hi, Z.mul_1_l. exact Hst.
  - cbn [sop_size aop_size]. rewrite Hi. lia.
  - exists f2. split; [exact E2|]. split; [|exact Fr].
    destruct (fresh_attrs e _ dt nmemb _ _ _ _ _ _ F2 (fun k => A2 k)) as (names & A1 & A3 & A4 & A5). rewrite Hsv in *. exists b2, names. split; [exact O2|]. auto.
Qed.

(* The block ex_made has the attributes Box, one number 9 of type u4, and mass,
   three characters of type S1. *)
Example C68_example : g_clean ex_e /\ makeable ex_e ex_f1 (lit "d") (lit "x/y") (lit ">i4") 2 /\ rounds_ok LE (lit ">i4") 2 ex_sizes3 ex_rounds /\
  int_type (dtype_normalize LE (lit "i8")) 64 true /\ word (lit "new") /\ Forall2 number [lit "-7"; lit "08"] [-7; 8] /\ Forall (in_type 64 true) [-7; 8] /\
  (exists f2, bigfile_set_attr ex_e ex_sc ex_made (lit "d") (lit "x/y") false (Some (lit "i8")) 2 (lit "new") [lit "-7"; lit "08"] = Ret (0, f2)) /\
  (exists f2, bigfile_set_attr ex_e ex_sc ex_made (lit "d") (lit "x/y") false (Some (lit "S1")) 0 (lit "mass") [lit "xy"] = Ret (0, f2)).
Proof.
  split; [exact ex_g|]. split; [exact ex_makeable2|]. split.
  { unfold ex_rounds. cbn [rounds_ok]. split; [repeat apply Forall_cons; try apply Forall_nil; slegal|]. split; [exact ex_full_ok|exact I]. }
  split; [constructor; left; reflexivity|]. split; [split; [discriminate|repeat constructor; discriminate]|].
  split. { constructor; [|constructor; [|constructor]]; [exists true, (lit "7")|exists false, (lit "08")]; (split; [reflexivity|]; split; [discriminate|]; split; [repeat constructor; vm_compute; discriminate|reflexivity]). }
  split; [repeat constructor; vm_compute; congruence|].
  split; eexists; vm_compute; reflexivity.
Qed.

(* Without -t an existing attribute gets the type of the attribute after it in
   the list: Box becomes one character. *)
Theorem C68_type_refuted : exists f2 b a, make_and_use ex_e ex_f1 (lit "d") (lit "x/y") (lit ">i4") 2 ex_sizes3 ex_rounds = Ret (Some (0, ex_made)) /\
  (exists b1 a1, big_file_open_block ex_e ex_made (lit "d") (lit "x/y") = Ret (Some b1) /\ attrset_lookup_attr (b_attrset b1) (lit "Box") = Ret (Some a1) /\ at_dtype a1 = lit "<u4" /\ at_nmemb a1 = 1) /\
  bigfile_set_attr ex_e ex_sc ex_made (lit "d") (lit "x/y") false None 0 (lit "Box") [lit "7"] = Ret (0, f2) /\
  big_file_open_block ex_e f2 (lit "d") (lit "x/y") = Ret (Some b) /\ attrset_lookup_attr (b_attrset b) (lit "Box") = Ret (Some a) /\ at_dtype a = lit "<S1".
Proof.
  set (f2 := match bigfile_set_attr ex_e ex_sc ex_made (lit "d") (lit "x/y") false None 0 (lit "Box") [lit "7"] with Ret (_, g) => g | _ => [] end).
  assert (E : match big_file_open_block ex_e f2 (lit "d") (lit "x/y") with Ret (Some b) => match attrset_lookup_attr (b_attrset b) (lit "Box") with Ret (Some a) => at_dtype a | _ => [] end | _ => [] end = lit "<S1") by (vm_compute; reflexivity).
  assert (E1 : match big_file_open_block ex_e ex_made (lit "d") (lit "x/y") with Ret (Some b) => match attrset_lookup_attr (b_attrset b) (lit "Box") with Ret (Some a) => (at_dtype a, at_nmemb a) | _ => ([], 0) end | _ => ([], 0) end = (lit "<u4", 1)) by (vm_compute; reflexivity).
  exists f2. destruct (big_file_open_block ex_e f2 (lit "d") (lit "x/y")) as [[b|]|u|]; try discriminate E.
  destruct (attrset_lookup_attr (b_attrset b) (lit "Box")) as [[a|]|u|] eqn:E9; try discriminate E. exists b, a.
  split; [vm_compute; reflexivity|]. split.
  { destruct (big_file_open_block ex_e ex_made (lit "d") (lit "x/y")) as [[b1|]|u|]; try discriminate E1.
    destruct (attrset_lookup_attr (b_attrset b1) (lit "Box")) as [[a1|]|u|] eqn:E2; try discriminate E1. exists b1, a1. injection E1 as X1 X2. auto. }
  split; [vm_compute; reflexivity|]. auto.
Qed.
(* The last attribute cannot be set without -t: undefined behaviour. *)
Theorem C68_last_refuted : exists e sc f path blk name args, bigfile_set_attr e sc f path blk false None 0 name args = Undef Overlap.
Proof. exists ex_e, ex_sc, ex_made, (lit "d"), (lit "x/y"), (lit "mass"), [lit "xy"]. vm_compute. reflexivity. Qed.
(* A new attribute without -n: the buffer has no room for the value. *)
Theorem C68_count_refuted : exists e sc f path blk d name args, int_type (dtype_normalize (e_me e) d) 64 true /\
  bigfile_set_attr e sc f path blk false (Some d) 0 name args = Undef OOB.
Proof. exists ex_e, ex_sc, ex_made, (lit "d"), (lit "x/y"), (lit "i8"), (lit "new"), [lit "7"]. split; [constructor; left; reflexivity|]. vm_compute. reflexivity. Qed.

Print Assumptions C68_set_partial.
Print Assumptions C68_string_partial.
Print Assumptions C68_type_refuted.
Print Assumptions C68_last_refuted.
Print Assumptions C68_count_refuted.
