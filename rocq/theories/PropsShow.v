(* Properties C70, C71, C72: bigfile-ls, bigfile-check, bigfile-get-attr. *)
From Coq.Strings Require Import Byte String.
From Coq Require Import List ZArith Lia Bool ZifyBool Sorted.
From Verif Require Import Base BaseFacts Dtype Cast CastSpec CastFacts Array FS Fmt Attr Block File Spec AttrSpec OpenSpec SessSpec HistSpec FileSpec PySpec Util UtilSpec Tools ToolsSpec Show ShowSpec
  FSFacts FileFacts ListFacts WriteFacts AttrFacts HistFacts PyNewFacts UtilFacts CopyFacts ToolsFacts ShowFacts DtypeFacts ReopenFacts Ex PropsHeader PropsAttr PropsHist PropsFile PropsPy PropsUtil PropsTools.
Import ListNotations.
Open Scope Z_scope.

(* ------------------------------------------------------------------ C70 *)
(* bigfile-ls prints the name of every block of the file, nested ones too, of
   which no component begins with a dot: one line each, every name once, in
   the order of the components. Nothing else is printed, no file changes. A
   block is a directory that big_file_open_block opens. (Opening damaged files
   can be undefined, see C16: assumed not to be.) *)
Theorem C70_ls : forall e f path, tree f -> path <> [] -> (length path <= Z.to_nat 8192)%nat -> fs_get f (resolve path) <> None ->
  (forall cs, visible cs -> fs_get f (resolve path ++ cs) <> None -> exists ob, big_file_open_block e f path (slashed cs) = Ret ob) ->
  exists names, bigfile_ls e false f path None = Ret (0, lines (map slashed names), f) /\ StronglySorted before names /\
    forall cs, In cs names <-> visible cs /\ fs_get f (resolve path ++ cs) <> None /\ exists b, opens_as e f path (slashed cs) b.
Proof.
  intros e f path HT Hp Hl Hx Ho. destruct (ls_spec e false f path HT Hp Hl Hx Ho) as (L & E & S & B). exists (map fst L). split; [|split].
  - rewrite E. unfold lines. rewrite !map_map. reflexivity.
  - clear -S. induction S as [|x l S IH Hf]; [constructor|]. cbn [map]. constructor; [exact IH|]. apply Forall_map. exact Hf.
  - intros cs. rewrite in_map_iff. split.
    + intros ([cs' b] & <- & H). apply B in H. cbn [fst]. destruct H as (V & X & O). eauto.
    + intros (V & X & b & O). exists (cs, b). split; [reflexivity|]. apply B. auto.
Qed.

(* bigfile-ls -l: the same names, and each line consists of the name, the type,
   the elements per row, the number of rows, the checksum, the number of files
   and the path. *)
Theorem C70_long : forall e f path, tree f -> path <> [] -> (length path <= Z.to_nat 8192)%nat -> fs_get f (resolve path) <> None ->
  (forall cs, visible cs -> fs_get f (resolve path ++ cs) <> None -> exists ob, big_file_open_block e f path (slashed cs) = Ret ob) ->
  exists (L : list (list bytes * block)) ls, bigfile_ls e true f path None = Ret (0, concat ls, f) /\ StronglySorted (fun p q => before (fst p) (fst q)) L /\
    (forall cs b, In (cs, b) L <-> visible cs /\ fs_get f (resolve path ++ cs) <> None /\ opens_as e f path (slashed cs) b) /\
    Forall2 (fun p line => let '(cs, b) := p in block_name (path_join path (slashed cs)) ->
      exists tn ts tc tf, fields_line [slashed cs; b_dtype b; tn; ts; tc; tf; b_base b] line /\
        number tn (b_nmemb b) /\ number ts (s64 (b_size b)) /\ number tc (ls_checksum b) /\ number tf (b_Nfile b)) L ls.
Proof.
  intros e f path HT Hp Hl Hx Ho. destruct (ls_spec e true f path HT Hp Hl Hx Ho) as (L & E & S & B).
  exists L, (map (fun p => ls_line true (slashed (fst p)) (snd p)) L). split; [exact E|]. split; [exact S|]. split; [exact B|].
  assert (H : forall p, In p L -> opens_as e f path (slashed (fst p)) (snd p)) by (intros [cs b] Hi; apply B in Hi; apply Hi).
  clear -H. induction L as [|[cs b] L IH]; cbn [map]; constructor; [|apply IH; intros p Hi; apply H; right; exact Hi].
  intros Hbn. pose proof (H (cs, b) (or_introl eq_refl)) as O. cbn [fst snd] in *. unfold opens_as, big_file_open_block in O. apply (open_result e f _ b Hbn) in O.
  destruct O as (_ & O1 & O2 & _). eexists _, _, _, _. split; [apply line_fields|].
  split; [apply numeral_number, print_numeral; lia|]. split; [apply numeral_number, print_numeral; apply s64_small|].
  split; [|apply numeral_number, print_numeral; lia]. destruct (unsigned_numeral (ls_checksum b) (ls_checksum_small b)) as (A1 & A2 & A3 & _). apply padded; auto; lia.
Qed.

(* The line of a block that has been made and used. *)
Theorem C70_block : forall e f path blk d nmemb sizes rs,
  let dt := dtype_normalize (e_me e) d in
  g_clean e -> makeable e f path blk d nmemb -> layout_ok sizes -> zlen sizes <= 2 ^ 24 ->
  rounds_ok (e_me e) dt nmemb sizes rs -> attr_bytes (e_me e) rs <= 2 ^ 61 ->
  exists f1 t M, make_and_use e f path blk d nmemb sizes rs = Ret (Some (0, f1)) /\
    lives (e_me e) dt nmemb (new_table sizes) (fun _ => None) rs t M /\
    exists tn ts tc tf line, bigfile_ls e true f1 path (Some blk) = Ret (0, line, f1) /\
      fields_line [blk; dt; tn; ts; tc; tf; path_join path blk] line /\
      number tn nmemb /\ number ts (t_size t) /\ number tc (sysv_of (written_bytes t)) /\ number tf (zlen (t_sizes t)).
Proof.
  intros e f path blk d nmemb sizes rs dt Hg Hmk Hlo HN Hrs Hab.
  destruct (live e f path blk d nmemb sizes rs Hg Hmk Hlo HN Hrs Hab) as (f1 & t & M & dd & b0 & E & L & F & A & O & _).
  exists f1, t, M. split; [exact E|]. split; [exact L|]. destruct Hmk as [_ _ Mn _ _ Mi Mt Md Mc Mw]. fold dt in Mt, Md, Mc, Mw.
  apply (ls_made e f1 path blk dt nmemb t dd b0 Mn Mt Mi O F).
Qed.
(* A nested block is listed after the one it is in; one whose name begins with
   a dot is not listed although it can be opened. *)
Example C70_example : tree ex_nested /\ fs_get ex_nested (resolve (lit "d")) <> None /\
  (forall cs, visible cs -> fs_get ex_nested (resolve (lit "d") ++ cs) <> None -> exists ob, big_file_open_block ex_e ex_nested (lit "d") (slashed cs) = Ret ob) /\
  bigfile_ls ex_e false ex_nested (lit "d") None = Ret (0, lit "a" ++ [x0a] ++ lit "a/b" ++ [x0a], ex_nested).
Proof.
  split; [apply tree_check; reflexivity|]. split; [discriminate|]. split; [|vm_compute; reflexivity].
  intros cs _ H. change (resolve (lit "d")) with [lit "d"] in H. cbn [app] in H.
  assert (Hp : exists n, In (lit "d" :: cs, n) ex_nested) by (apply find_in; destruct cs; exact H). destruct Hp as [n Hp].
  destruct Hp as [Hp|[Hp|[Hp|[Hp|[Hp|[]]]]]]; injection Hp as <- _; match goal with |- exists ob, ?x = Ret ob => assert (G : match x with Ret _ => True | _ => False end) by (vm_compute; exact I); destruct x; [eauto|contradiction|contradiction] end.
Qed.
Theorem C70_hidden_refuted : exists e f path name, tree f /\ opens e f path name /\ bigfile_ls e false f path None = Ret (0, [], f).
Proof.
  exists ex_e, ex_hidden, (lit "d"), (lit ".a").  split; [apply tree_check; reflexivity|]. split; [|vm_compute; reflexivity].
  assert (H : match big_file_open_block ex_e ex_hidden (lit "d") (lit ".a") with Ret (Some _) => True | _ => False end) by (vm_compute; exact I).
  unfold opens. destruct (big_file_open_block ex_e ex_hidden (lit "d") (lit ".a")) as [[b0|]|u|]; try contradiction. eauto.
Qed.

(* ------------------------------------------------------------------ C71 *)
(* Full statement: bigfile-check prints "check sum failed" for a block exactly
   if its data are not those that were written.
   False in both directions, see below. What it compares: the sum of all bytes
   ever written and that of the bytes of the rows, both as sum -s reduces them.
   Assumed: every row has been written or is before a written one of its file,
   and is no longer than the buffer of bigfile-cat. *)
Theorem C71_compares_partial : forall e f path blk d nmemb sizes rs,
  let dt := dtype_normalize (e_me e) d in let w := itemsize (e_me e) dt * nmemb in
  g_clean e -> makeable e f path blk d nmemb -> blk <> [] -> layout_ok sizes -> zlen sizes <= 2 ^ 24 ->
  rounds_ok (e_me e) dt nmemb sizes rs -> attr_bytes (e_me e) rs <= 2 ^ 61 -> w <= 2 ^ 28 ->
  exists f1 t M, make_and_use e f path blk d nmemb sizes rs = Ret (Some (0, f1)) /\
    lives (e_me e) dt nmemb (new_table sizes) (fun _ => None) rs t M /\
    forall rows fuel, t_size t * nmemb < 2 ^ 63 -> zlen rows = t_size t -> shows_from w t 0 rows -> t_size t < Z.of_nat fuel ->
    check_block e f1 path blk fuel = Ret (negb (sysv_of (written_bytes t) =? sysv_of (byte_sum (concat rows)))).
Proof.
  intros e f path blk d nmemb sizes rs dt w Hg Hmk Hblk Hlo HN Hrs Hab Hw.
  destruct (live e f path blk d nmemb sizes rs Hg Hmk Hlo HN Hrs Hab) as (f1 & t & M & dd & b0 & E & L & F & A & O & _).
  exists f1, t, M. split; [exact E|]. split; [exact L|]. intros rows fuel Hsm Hz Hsh Hfu. destruct Hmk as [_ _ Mn _ _ Mi Mt Md Mc Mw]. fold dt in Mt, Md, Mc, Mw.
  exact (check_main e f1 path blk dt nmemb t dd b0 Mn Hblk Mt Mi Mc Mw Md Hsm Hw O F rows fuel Hz Hsh Hfu).
Qed.

(* Nothing is printed for a block no row of which was written twice; if then
   any one byte of its data files changes, "check sum failed" is printed. *)
Theorem C71_one_byte_partial : forall e f path blk d nmemb sizes rs,
  let dt := dtype_normalize (e_me e) d in let w := itemsize (e_me e) dt * nmemb in
  g_clean e -> makeable e f path blk d nmemb -> blk <> [] -> layout_ok sizes -> zlen sizes <= 2 ^ 24 ->
  rounds_ok (e_me e) dt nmemb sizes rs -> attr_bytes (e_me e) rs <= 2 ^ 61 -> w <= 2 ^ 28 ->
  rounds_once (e_me e) dt nmemb (new_table sizes) rs ->
  exists f1 t M, make_and_use e f path blk d nmemb sizes rs = Ret (Some (0, f1)) /\
    lives (e_me e) dt nmemb (new_table sizes) (fun _ => None) rs t M /\
    forall rows fuel, t_size t * nmemb < 2 ^ 63 -> zlen rows = t_size t -> shows_from w t 0 rows -> t_size t < Z.of_nat fuel ->
    check_block e f1 path blk fuel = Ret false /\
    forall f2 old new, one_byte f1 f2 (path_join path blk) (t_sizes t) old new -> old <> new -> check_block e f2 path blk fuel = Ret true.
Proof.
  intros e f path blk d nmemb sizes rs dt w Hg Hmk Hblk Hlo HN Hrs Hab Hw Hon.
  destruct (live e f path blk d nmemb sizes rs Hg Hmk Hlo HN Hrs Hab) as (f1 & t & M & dd & b0 & E & L & F & A & O & _).
  exists f1, t, M. split; [exact E|]. split; [exact L|]. intros rows fuel Hsm Hz Hsh Hfu. destruct Hmk as [_ _ Mn _ _ Mi Mt Md Mc Mw]. fold dt in Mt, Md, Mc, Mw.
  assert (K : ledger t) by (eapply ledger_lives; [apply Mi|exact L|exact Hrs|exact Hon|apply ledger_new; apply Hlo]).
  assert (C : check_block e f1 path blk fuel = Ret false).
  { rewrite (check_main e f1 path blk dt nmemb t dd b0 Mn Hblk Mt Mi Mc Mw Md Hsm Hw O F rows fuel Hz Hsh Hfu). change (sysv_checksum (concat rows)) with (sysv_of (byte_sum (concat rows))).
    rewrite (shown_sum w t rows K Hz Hsh), Z.eqb_refl. reflexivity. }
  split; [exact C|]. intros f2 old new H1 Hne.
  exact (check_damage e f1 f2 path blk dt nmemb t dd b0 old new Mn Hblk Mt Mi Mc Mw Md Hsm Hw O F rows fuel Hz Hsh Hfu C H1 Hne).
Qed.

(* Also after overwriting nothing is damaged, and it is printed. *)
Definition ex_over : list round := [Rows [HWrite 0 ex_a ex_um; HWrite 0 ex_a ex_um]].
Theorem C71_overwritten_refuted : exists e f path blk d nmemb sizes rs f1, makeable e f path blk d nmemb /\
  rounds_ok (e_me e) (dtype_normalize (e_me e) d) nmemb sizes rs /\ make_and_use e f path blk d nmemb sizes rs = Ret (Some (0, f1)) /\
  check_block e f1 path blk 100 = Ret true.
Proof.
  exists ex_e, ex_f1, (lit "d"), (lit "x/y"), (lit ">i4"), 2, [2; 1], ex_over, (match make_and_use ex_e ex_f1 (lit "d") (lit "x/y") (lit ">i4") 2 [2; 1] ex_over with Ret (Some (_, g)) => g | _ => [] end).
  split; [exact ex_makeable2|]. split; [|split; vm_compute; reflexivity].
  split; [|exact I]. cbn [history_ok sizes_after fold_left ex_over]. hist_tac.
Qed.
(* The first two bytes of a data file exchanged: nothing is printed. *)
Definition ex_swap (f : fs) : fs :=
  match fs_get f (data_path (lit "d/x/y") 0) with Some (File (x :: y :: r)) => fs_set f (data_path (lit "d/x/y") 0) (File (y :: x :: r)) | _ => f end.
Theorem C71_exchanged_refuted : exists e f path blk d nmemb sizes rs f1 f2, makeable e f path blk d nmemb /\
  rounds_ok (e_me e) (dtype_normalize (e_me e) d) nmemb sizes rs /\ make_and_use e f path blk d nmemb sizes rs = Ret (Some (0, f1)) /\
  (exists c1 c2, data_file f1 (path_join path blk) 0 = Some c1 /\ data_file f2 (path_join path blk) 0 = Some c2 /\ c1 <> c2) /\
  check_block e f2 path blk 100 = Ret false.
Proof.
  exists ex_e, ex_f1, (lit "d"), (lit "x/y"), (lit ">i4"), 2, [4; 2], ex_six, ex_six_made, (ex_swap ex_six_made).
  split; [exact ex_makeable2|]. split; [exact (proj1 ex_six_ok)|]. split; [vm_compute; reflexivity|]. split; [|vm_compute; reflexivity].
  assert (H : match data_file ex_six_made (path_join (lit "d") (lit "x/y")) 0, data_file (ex_swap ex_six_made) (path_join (lit "d") (lit "x/y")) 0 with Some c1, Some c2 => c1 <> c2 | _, _ => False end) by (vm_compute; discriminate).
  destruct (data_file ex_six_made (path_join (lit "d") (lit "x/y")) 0) as [c1|]; [|contradiction].
  destruct (data_file (ex_swap ex_six_made) (path_join (lit "d") (lit "x/y")) 0) as [c2|]; [|contradiction]. eauto.
Qed.
(* Nothing is printed for a block that cannot be opened or does not exist. *)
Theorem C71_unopenable_refuted : forall e f path blk fuel, (forall bf, big_file_open f path = Some bf -> big_file_open_block e f bf blk = Ret None) ->
  check_block e f path blk fuel = Ret false.
Proof.
  intros e f path blk fuel H. unfold check_block. assert (E : exists c, bigfile_cat e false f path blk 0 (-1) (2 ^ 28) fuel = Ret (c, [], f)).
  { unfold bigfile_cat. destruct (big_file_open f path) as [p|] eqn:Ep; [|eexists; reflexivity]. rewrite (H p eq_refl). eexists; reflexivity. }
  destruct E as [c E]. rewrite E. cbn [bind]. unfold bigfile_ls. destruct (big_file_open f path) as [p|] eqn:Ep; [|reflexivity]. rewrite (ls_block_ok _ _ _ _ _ _ (H p eq_refl)). reflexivity.
Qed.
Example C71_example : g_clean ex_e /\ makeable ex_e ex_f1 (lit "d") (lit "x/y") (lit ">i4") 2 /\ layout_ok [4; 2] /\ rounds_ok LE (lit ">i4") 2 [4; 2] ex_six /\
  attr_bytes LE ex_six <= 2 ^ 61 /\ rounds_once LE (lit ">i4") 2 (new_table [4; 2]) ex_six /\ check_block ex_e ex_six_made (lit "d") (lit "x/y") 100 = Ret false.
Proof.
  split; [exact ex_g|]. split; [exact ex_makeable2|]. split; [split; [|split]; [repeat constructor; ex_neg|reflexivity|reflexivity]|]. destruct ex_six_ok as [H1 H2].
  split; [exact H1|]. split; [exact H2|]. split; [|vm_compute; reflexivity].
  split; [|intros; exact I].
  split; [intros _ q _; reflexivity|]. intros x t' Hs. split; [|intros; exact I]. change (nrows 2 ex_a) with 3. intros _ q Hq.
  inversion Hs; subst; try reflexivity. cbn [with_rows t_row new_table]. unfold zlen. rewrite rows_of_length.
  change (Z.of_nat (Z.to_nat (nrows 2 ex_a))) with 3. replace ((0 <=? q) && (q <? 0 + 3)) with false by lia. reflexivity.
Qed.

(* ------------------------------------------------------------------ C72 *)
(* Full statement: bigfile-get-attr prints the attributes named, or all of
   them, with their types, lengths and values, and changes no file.
   False for strings, and for naming an attribute twice; see below. Proved for
   integer types. One name, without -l: the value; with -l: the whole line. *)
Theorem C72_one_partial : forall e f path blk d nmemb sizes rs,
  let dt := dtype_normalize (e_me e) d in
  g_clean e -> makeable e f path blk d nmemb -> layout_ok sizes -> zlen sizes <= 2 ^ 24 ->
  rounds_ok (e_me e) dt nmemb sizes rs -> attr_bytes (e_me e) rs <= 2 ^ 61 ->
  exists f1 t M, make_and_use e f path blk d nmemb sizes rs = Ret (Some (0, f1)) /\
    lives (e_me e) dt nmemb (new_table sizes) (fun _ => None) rs t M /\
    forall name,
    (forall v width signed, M name = Some v -> int_type (dtype_normalize (e_me e) (av_dtype v)) width signed ->
       exists s, value_text (e_me e) v s /\ bigfile_get_attr e false f1 path blk [name] = Ret (0, s ++ [x0a], f1) /\
         bigfile_get_attr e true f1 path blk [name] = Ret (0, attr_line name v s, f1)) /\
    (M name = None -> forall long, bigfile_get_attr e long f1 path blk [name] = Ret (0, name ++ lit ", not attr:" ++ [x0a], f1)).
Proof.
  intros e f path blk d nmemb sizes rs dt Hg Hmk Hlo HN Hrs Hab.
  destruct (live e f path blk d nmemb sizes rs Hg Hmk Hlo HN Hrs Hab) as (f1 & t & M & dd & b0 & E & L & F & A & O & _).
  exists f1, t, M. split; [exact E|]. split; [exact L|]. intros name. destruct Hmk as [_ _ Mn _ _ Mi Mt Md Mc Mw]. fold dt in Mt, Md, Mc, Mw.
  rewrite <- A. exact (get_named e f1 path blk dt nmemb t dd b0 Mn Mt Mi O F name).
Qed.

(* Several names, or none for all attributes, if those concerned are of integer
   types: one line for each, for all of them in the order of the names. *)
Theorem C72_several_partial : forall e f path blk d nmemb sizes rs,
  let dt := dtype_normalize (e_me e) d in
  g_clean e -> makeable e f path blk d nmemb -> layout_ok sizes -> zlen sizes <= 2 ^ 24 ->
  rounds_ok (e_me e) dt nmemb sizes rs -> attr_bytes (e_me e) rs <= 2 ^ 61 ->
  exists f1 t M, make_and_use e f path blk d nmemb sizes rs = Ret (Some (0, f1)) /\
    lives (e_me e) dt nmemb (new_table sizes) (fun _ => None) rs t M /\
    let plain v := exists width signed, int_type (dtype_normalize (e_me e) (av_dtype v)) width signed in
    (forall names, (2 <= length names)%nat -> Forall (fun n => forall v, M n = Some v -> plain v) names ->
       exists s, names_text (e_me e) M names s /\ forall long, bigfile_get_attr e long f1 path blk names = Ret (0, s, f1)) /\
    ((forall n v, M n = Some v -> plain v) ->
       exists L s, StronglySorted (fun x y => bytes_before (fst x) (fst y)) L /\ (forall n v, In (n, v) L <-> M n = Some v) /\ attrs_text (e_me e) L s /\
         forall long, bigfile_get_attr e long f1 path blk [] = Ret (0, s, f1)).
Proof.
  intros e f path blk d nmemb sizes rs dt Hg Hmk Hlo HN Hrs Hab.
  destruct (live e f path blk d nmemb sizes rs Hg Hmk Hlo HN Hrs Hab) as (f1 & t & M & dd & b0 & E & L & F & A & O & _).
  exists f1, t, M. split; [exact E|]. split; [exact L|]. destruct Hmk as [_ _ Mn _ _ Mi Mt Md Mc Mw]. fold dt in Mt, Md, Mc, Mw. intros plain. split.
  - intros names Hl HF. destruct (get_several e f1 path blk dt nmemb t dd b0 Mn Mt Mi O F names Hl) as (s & V & H).
    + eapply Forall_impl; [|exact HF]. intros n Hn v Hv. apply Hn. rewrite <- A. exact Hv.
    + exists s. split; [|exact H]. eapply names_text_ext; [|exact V]. exact A.
  - intros HF. destruct (ShowFacts.get_all e f1 path blk dt nmemb t dd b0 Mn Mt Mi O F) as (L0 & s & S & I & V & H).
    + intros n v Hv. apply (HF n v). rewrite <- A. exact Hv.
    + exists L0, s. split; [exact S|]. split; [|split; [exact V|exact H]]. intros n v. rewrite <- A. apply I.
Qed.
Definition ex_shown (c : list byte) (d : string) : list round := [Attrs [SSet (lit "Box") (ex_val c) 500 (lit d) 2; SSet (lit "n") (ex_val c) 500 (lit "u1") 1; SReopen]].
Definition ex_shown_made (e : env) (c : list byte) (d : string) : fs := match make_and_use e ex_f1 (lit "d") (lit "x/y") (lit ">i4") 2 [1] (ex_shown c d) with Ret (Some (_, g)) => g | _ => [] end.
Definition ex_c1 : list byte := [x09; x00; x00; x00; xff; xff; xff; xff].
Lemma ex_shown_ok : rounds_ok LE (lit ">i4") 2 [1] (ex_shown ex_c1 "i4") /\ attr_bytes LE (ex_shown ex_c1 "i4") <= 2 ^ 61.
Proof. split; [|vm_compute; congruence]. unfold ex_shown. cbn [rounds_ok]. split; [repeat apply Forall_cons; try apply Forall_nil; slegal|exact I]. Qed.
Example C72_example : g_clean ex_e /\ makeable ex_e ex_f1 (lit "d") (lit "x/y") (lit ">i4") 2 /\ layout_ok [1] /\ rounds_ok LE (lit ">i4") 2 [1] (ex_shown ex_c1 "i4") /\
  attr_bytes LE (ex_shown ex_c1 "i4") <= 2 ^ 61 /\ make_and_use ex_e ex_f1 (lit "d") (lit "x/y") (lit ">i4") 2 [1] (ex_shown ex_c1 "i4") = Ret (Some (0, ex_shown_made ex_e ex_c1 "i4")) /\
  bigfile_get_attr ex_e false (ex_shown_made ex_e ex_c1 "i4") (lit "d") (lit "x/y") [lit "Box"] = Ret (0, lit "9 -1" ++ [x0a], ex_shown_made ex_e ex_c1 "i4") /\
  bigfile_get_attr ex_e false (ex_shown_made ex_e ex_c1 "i4") (lit "d") (lit "x/y") [lit "Box"; lit "x"] =
    Ret (0, lit "Box                  <i4   2  [ 9 -1 ]" ++ [x0a] ++ lit "x, not attr:" ++ [x0a], ex_shown_made ex_e ex_c1 "i4").
Proof.
  destruct ex_shown_ok as [H1 H2]. split; [exact ex_g|]. split; [exact ex_makeable2|]. split; [split; [|split]; [repeat constructor; ex_neg|reflexivity|reflexivity]|].
  split; [exact H1|]. split; [exact H2|]. split; [vm_compute; reflexivity|]. split; vm_compute; reflexivity.
Qed.
(* An attribute written on a machine of the other byte order, named twice: the
   second value printed is another one. *)
Definition ex_c2 : list byte := [x00; x00; x00; x01; xff; xff; xff; xff].
Theorem C72_twice_refuted : exists e0 e f path blk d nmemb sizes rs f1 name,
  rounds_ok (e_me e0) (dtype_normalize (e_me e0) d) nmemb sizes rs /\ make_and_use e0 f path blk d nmemb sizes rs = Ret (Some (0, f1)) /\
  bigfile_get_attr e false f1 path blk [name; name] =
    Ret (0, lit "Box                  >i4   2  [ 1 -1 ]" ++ [x0a] ++ lit "Box                  >i4   2  [ 16777216 -1 ]" ++ [x0a], f1).
Proof.
  exists ex_be, ex_e, ex_f1, (lit "d"), (lit "x/y"), (lit ">i4"), 2, [1], (ex_shown ex_c2 "i4"), (ex_shown_made ex_be ex_c2 "i4"), (lit "Box").
  split; [|split; vm_compute; reflexivity]. unfold ex_shown. cbn [rounds_ok]. split; [repeat apply Forall_cons; try apply Forall_nil; slegal|exact I].
Qed.
(* A string attribute, here "abc": its characters are not printed. *)
Theorem C72_string_refuted : exists e f path blk d nmemb sizes rs f1 name, makeable e f path blk d nmemb /\
  rounds_ok (e_me e) (dtype_normalize (e_me e) d) nmemb sizes rs /\ make_and_use e f path blk d nmemb sizes rs = Ret (Some (0, f1)) /\
  (exists a b c, rs = a ++ Attrs (b ++ [SSet name (ex_val (lit "abc")) 500 (lit "S1") 3; SReopen; SFlush]) :: c) /\
  bigfile_get_attr e false f1 path blk [name] = Ret (0, lit "<<S1><<S1><<S1>" ++ [x0a], f1).
Proof.
  exists ex_e, ex_f1, (lit "d"), (lit "x/y"), (lit ">i4"), 2, [4; 2], ex_six, ex_six_made, (lit "mass").
  split; [exact ex_makeable2|]. split; [exact (proj1 ex_six_ok)|]. split; [vm_compute; reflexivity|]. split; [|vm_compute; reflexivity].
  exists []. eexists. eexists. unfold ex_six, ex_sops. rewrite app_nil_l. f_equal. f_equal.
  instantiate (1 := [_; _; _; _]). reflexivity.
Qed.

Definition all_Show := (@C70_ls, @C70_long, @C70_block, @C70_hidden_refuted, @C71_compares_partial, @C71_one_byte_partial, @C71_overwritten_refuted, @C71_exchanged_refuted,
  @C71_unopenable_refuted, @C72_one_partial, @C72_several_partial, @C72_twice_refuted, @C72_string_refuted).
Print Assumptions all_Show.
