(* The command line utilities bigfile-ls, bigfile-check and bigfile-get-attr. *)
From Coq.Strings Require Import Byte String.
From Coq Require Import List ZArith Lia Bool.
From Verif Require Import Base Dtype Cast Array FS Fmt Attr Block File Spec HistSpec Tools.
Import ListNotations.
Open Scope Z_scope.
Local Open Scope out_scope.

(* printf: "%-<n>s", "%<n>d", "%0<n>u" *)
Definition pad_right (n : nat) (s : bytes) : bytes := s ++ repeat " "%byte (n - length s).
Definition pad_left (c : byte) (n : nat) (s : bytes) : bytes := repeat c (n - length s) ++ s.

(* utils/bigfile-ls.c:74-91: what is printed for an opened block. The checksum
   is that of lines 80-86. size is a size_t printed with %td. *)
Definition ls_line (long : bool) (name : bytes) (b : block) : bytes :=
  if negb long then name ++ [x0a] else
  pad_right 28 name ++ lit " " ++ b_dtype b ++ lit " " ++ print_signed (b_nmemb b) ++ lit " "
  ++ pad_left " " 12 (print_signed (s64 (b_size b))) ++ lit " " ++ pad_left "0" 5 (print_unsigned (ls_checksum b)) ++ lit " "
  ++ print_signed (b_Nfile b) ++ lit " " ++ b_base b ++ [x0a].
(* utils/bigfile-ls.c:69-95 listbigblock: 0 and the text, or -1; and the files
   after closing. *)
Definition ls_block (e : env) (long : bool) (f : fs) (bf name : bytes) : out (Z * bytes * fs) :=
  ob <- big_file_open_block e f bf name ;;
  match ob with
  | None => Ret (-1, [], f)
  | Some b => '(_, f) <- big_block_close e f b ;; Ret (0, ls_line long name b, f)
  end.
(* utils/bigfile-ls.c:43-46, 58-61: "%s/%s", or the second alone if the first
   is empty *)
Definition ls_join (p s : bytes) : bytes := match p with [] => s | _ => p ++ "/"%byte :: s end.
(* utils/bigfile-ls.c:38-67 listbigfile_r: the text and the files. If stat
   fails, st is used without having been set. fuel: depth of the recursion. *)
Fixpoint ls_r (e : env) (long : bool) (bf : bytes) (fuel : nat) (f : fs) (path : bytes) : out (bytes * fs) :=
  match fuel with
  | O => Diverge
  | S fuel' =>
      let buf := match path with [] => bf | _ => bf ++ "/"%byte :: path end in
      match (match buf with [] => None | _ => fs_get f (resolve buf) end) with
      | None => Undef UninitRead
      | Some (File _) => Ret ([], f)
      | Some Dir =>
          match scandir f buf with
          | None => Ret ([], f)
          | Some l =>
              fold_left (fun o d =>
                '(t, f) <- o ;;
                let name := ls_join path d in
                '(_, t1, f) <- ls_block e long f bf name ;;
                '(t2, f) <- ls_r e long bf fuel' f name ;;
                Ret (t ++ t1 ++ t2, f)) l (Ret ([], f))
          end
      end
  end.
(* utils/bigfile-ls.c:97-126 main, after the options are read: the exit code,
   standard output and the files. *)
Definition bigfile_ls (e : env) (long : bool) (f : fs) (path : bytes) (blk : option bytes) : out (Z * bytes * fs) :=
  match big_file_open f path with
  | None => Ret (1, [], f)
  | Some bf =>
      match blk with
      | None => '(t, f) <- ls_r e long bf (S (S (fs_depth f))) f [] ;; Ret (0, t, f)
      | Some name => '(_, t, f) <- ls_block e long f bf name ;; Ret (0, t, f)
      end
  end.

(* ------------------------------------------------------------------ *)
(* awk '{print $<n>}' of one line: its fields are separated by blanks. *)
Fixpoint awk_fields (cur : bytes) (s : bytes) : list bytes :=
  match s with
  | [] => match cur with [] => [] | _ => [rev cur] end
  | c :: r =>
      if Byte.eqb c " " || Byte.eqb c x09 || Byte.eqb c x0a
      then match cur with [] => awk_fields [] r | _ => rev cur :: awk_fields [] r end
      else awk_fields (c :: cur) r
  end.
Definition awk_field (n : nat) (s : bytes) : bytes := nth (pred n) (awk_fields [] s) [].
(* The shell's [ a -ne b ]: false also if one of them is not a number. *)
Definition shell_ne (a b : bytes) : bool :=
  match scan_dec a, scan_dec b with
  | Some (x, []), Some (y, []) => negb (x =? y)
  | _, _ => false
  end.
(* utils/bigfile-check:33-56: whether "check sum failed" is printed for the
   block. $? is the status of awk, so a failure of bigfile-cat or bigfile-ls is
   not noticed; what they printed is used. The buffer of bigfile-cat has 256
   MB (bigfile-cat.c:38). sum -s is the checksum of its input. *)
Definition check_block (e : env) (f : fs) (path blk : bytes) (fuel : nat) : out bool :=
  '(_, data, f) <- bigfile_cat e false f path blk 0 (-1) (2 ^ 28) fuel ;;
  '(_, line, _) <- bigfile_ls e true f path (Some blk) ;;
  Ret (shell_ne (print_unsigned (sysv_checksum data)) (awk_field 5 line)).

(* ------------------------------------------------------------------ *)
(* utils/bigfile-get-attr.c:26-37: elements i .. i+n-1; the text and the
   attributes, whose bytes big_file_dtype_format may swap. *)
Fixpoint attr_text (e : env) (m : mem) (a : attr) (i : Z) (n : nat) : out (bytes * mem) :=
  match n with
  | O => Ret ([], m)
  | S k =>
      '(t, m) <- dtype_format (e_fg e) (e_me e) m (at_data a + i * itemsize (e_me e) (at_dtype a)) (at_dtype a) ;;
      '(r, m) <- attr_text e m a (i + 1) k ;;
      let endl := if negb (i =? at_nmemb a - 1) && negb (Byte.eqb (nth 1 (at_dtype a) x00) "S") then lit " " else [] in
      Ret (until_nul t ++ endl ++ r, m)
  end.
(* utils/bigfile-get-attr.c:18-43 print_attr *)
Definition print_attr (e : env) (brief : bool) (s : attrset) (a : attr) : out (bytes * attrset) :=
  name <- attr_name s a ;;
  '(t, m) <- attr_text e (as_mem s) a 0 (Z.to_nat (at_nmemb a)) ;;
  Ret ((if brief then t else pad_right 20 name ++ lit " " ++ at_dtype a ++ lit " " ++ pad_left " " 3 (print_signed (at_nmemb a)) ++ lit "  [ " ++ t ++ lit " ]") ++ [x0a],
       set_mem s m).
(* utils/bigfile-get-attr.c:70-77: all attributes *)
Fixpoint print_attrs (e : env) (s : attrset) (l : list attr) : out (bytes * attrset) :=
  match l with
  | [] => Ret ([], s)
  | a :: r => '(t, s) <- print_attr e false s a ;; '(u, s) <- print_attrs e s r ;; Ret (t ++ u, s)
  end.
(* utils/bigfile-get-attr.c:78-85: those named *)
Fixpoint print_named (e : env) (brief : bool) (s : attrset) (names : list bytes) : out (bytes * attrset) :=
  match names with
  | [] => Ret ([], s)
  | n :: r =>
      oa <- attrset_lookup_attr s n ;;
      '(t, s) <- (match oa with Some a => print_attr e brief s a | None => Ret (n ++ lit ", not attr:" ++ [x0a], s) end) ;;
      '(u, s) <- print_named e brief s r ;;
      Ret (t ++ u, s)
  end.
(* utils/bigfile-get-attr.c:44-88 main, after the options are read: the exit
   code, standard output and the files. *)
Definition bigfile_get_attr (e : env) (long : bool) (f : fs) (path blk : bytes) (names : list bytes) : out (Z * bytes * fs) :=
  match big_file_open f path with
  | None => Ret (1, [], f)
  | Some bf =>
  ob <- big_file_open_block e f bf blk ;;
  match ob with
  | None => Ret (1, [], f)
  | Some b =>
      '(t, s) <- (match names with
                  | [] => print_attrs e (b_attrset b) (as_list (b_attrset b))
                  | [n] => print_named e (negb long) (b_attrset b) [n]
                  | _ => print_named e false (b_attrset b) names
                  end) ;;
      '(_, f) <- big_block_close e f (set_attrs b s) ;;
      Ret (0, t, f)
  end end.
