(* The file layer: directories, opening and creating files and blocks by name,
   listing. A BigFile handle is its basename. *)
From Coq.Strings Require Import Byte String.
From Coq Require Import List ZArith Bool.
From Verif Require Import Base Dtype Cast Array FS Fmt Attr Block.
Import ListNotations.
Open Scope Z_scope.
Local Open Scope out_scope.

(* mkdir(2) on a path string: an empty string, and a path whose last component
   is "." below a missing directory, do not name anything (ENOENT). *)
Definition ends_in_dot (s : bytes) : bool :=
  match filter (fun c => match c with [] => false | _ => true end) (rev (split_slash [] s)) with
  | c :: _ => is_dot c
  | [] => false
  end.
Definition mkdir_str (f : fs) (s : bytes) : mkdir_res :=
  match s with
  | [] => MkFail
  | _ => match mkdir f (resolve s) with
         | MkOk f' => if ends_in_dot s then MkFail else MkOk f'
         | r => r
         end
  end.

(* bigfile.c:1945-1969 _big_file_mkdir: EEXIST is accepted; after any other
   error stat() is tried, which fails too because the path does not exist
   (permissions are not modelled). utimes is not modelled. *)
Definition big_file_mkdir (f : fs) (s : bytes) : Z * fs :=
  match mkdir_str f s with
  | MkOk f' => (0, f')
  | MkExist => (0, f)
  | MkFail => (-1, f)
  end.

(* bigfile.c:1981-1993: for each slash of subdir (seen characters in done) make
   the directory named by what precedes it. pathname NULL is []. *)
Fixpoint mksubdir_loop (f : fs) (pathname : bytes) (done todo : bytes) : Z * fs :=
  match todo with
  | [] => (0, f)
  | c :: r =>
      if Byte.eqb c "/" then
        let d := path_join pathname done in
        match d with
        | [] => mksubdir_loop f pathname (done ++ [c]) r
        | _ => match big_file_mkdir f d with
               | (rc, f') => if rc =? 0 then mksubdir_loop f' pathname (done ++ [c]) r else (-1, f')
               end
        end
      else mksubdir_loop f pathname (done ++ [c]) r
  end.
(* bigfile.c:1973-2001 _big_file_mksubdir_r *)
Definition mksubdir_r (f : fs) (pathname subdir : bytes) : Z * fs :=
  let s := strdup subdir in
  match mksubdir_loop f pathname [] s with
  | (rc, f1) => if rc =? 0 then big_file_mkdir f1 (path_join pathname s) else (-1, f1)
  end.

(* bigfile.c:182-194 big_file_open: stat must succeed. *)
Definition big_file_open (f : fs) (basename : bytes) : option bytes :=
  match basename with
  | [] => None
  | _ => match fs_get f (resolve basename) with
         | Some _ => Some (strdup basename)
         | None => None
         end
  end.
(* bigfile.c:196-204 big_file_create *)
Definition big_file_create (f : fs) (basename : bytes) : fs * option bytes :=
  match mksubdir_r f [] basename with
  | (rc, f') => (f', if rc =? 0 then Some (strdup basename) else None)
  end.

(* bigfile.c:278-285 big_file_open_block *)
Definition big_file_open_block (e : env) (f : fs) (bf : bytes) (blockname : bytes) : out (option block) :=
  big_block_open e f (path_join bf blockname).
(* bigfile.c:287-299 big_file_create_block *)
Definition big_file_create_block (e : env) (f : fs) (bf blockname : bytes) (dtype : option bytes)
    (nmemb Nfile : Z) (fsize : list Z) : out (fs * option block) :=
  match mksubdir_r f bf blockname with
  | (rc, f1) =>
      if rc =? 0 then big_block_create e f1 (path_join bf blockname) dtype nmemb Nfile fsize
      else Ret (f1, None)
  end.

(* ------------------------------------------------------------------ *)
(* Listing. *)

(* bigfile.c:144-153 _big_file_path_is_block: fopen(.., "r") succeeds. *)
Definition path_is_block (f : fs) (s : bytes) : bool :=
  match fopen_r f (header_path s) with Some _ => true | None => false end.

(* bigfile.c:210-213 filter *)
Definition listed_entry (c : bytes) : bool :=
  match c with b :: _ => negb (Byte.eqb b ".") | [] => true end.

(* strcoll in the C locale: byte order. *)
Fixpoint bytes_leb (a b : bytes) : bool :=
  match a, b with
  | [], _ => true
  | _ :: _, [] => false
  | x :: a', y :: b' => if b2z x <? b2z y then true else if b2z y <? b2z x then false else bytes_leb a' b'
  end.
Fixpoint insert_name (c : bytes) (l : list bytes) : list bytes :=
  match l with
  | [] => [c]
  | d :: r => if bytes_leb c d then c :: l else d :: insert_name c r
  end.
Definition sort_names (l : list bytes) : list bytes := fold_right insert_name [] l.

(* The names in a directory. *)
Definition has_parent (p : path) (q : path) : option bytes :=
  match rev q with
  | c :: _ => if path_eqb (removelast q) p && negb (path_eqb q [lit "/"]) then Some c else None
  | [] => None
  end.
Definition entries (f : fs) (p : path) : list bytes :=
  nodup (list_eq_dec Byte.byte_eq_dec)
    (flat_map (fun '(q, _) => match has_parent p q with Some c => [c] | None => [] end) f).
(* scandir(3): None if this is not a directory; the empty string names
   nothing. *)
Definition scandir (f : fs) (s : bytes) : option (list bytes) :=
  match s with
  | [] => None
  | _ => match fs_get f (resolve s) with
         | Some Dir => Some (sort_names (filter listed_entry (entries f (resolve s))))
         | _ => None
         end
  end.

(* bigfile.c:222-255 listbigfile_r: acc is the list built so far (newest
   first). The recursion goes one directory deeper each time. *)
Fixpoint listbigfile_r (f : fs) (basename : bytes) (fuel : nat) (blockname : bytes) (acc : list bytes)
    : out (list bytes) :=
  match fuel with
  | O => Diverge
  | S fuel' =>
      match scandir f (path_join basename blockname) with
      | None => Ret acc
      | Some l =>
          fold_left (fun o d =>
            acc <- o ;;
            let name1 := path_join blockname d in
            if path_is_block f (path_join basename name1) then Ret (name1 :: acc)
            else listbigfile_r f basename fuel' name1 acc) l (Ret acc)
      end
  end.
Definition fs_depth (f : fs) : nat := fold_right (fun '(q, _) n => Nat.max (length q) n) 0%nat f.
(* bigfile.c:257-275 big_file_list. Each name is copied with _strdup. *)
Definition big_file_list (f : fs) (bf : bytes) : out (list bytes) :=
  l <- listbigfile_r f bf (S (S (fs_depth f))) [] [] ;; Ret (map strdup l).
