(* The file system seen by the library: a finite map from resolved paths to
   files and directories, with the POSIX behaviour of fopen and mkdir.
   Not modelled: "..", symbolic links, permissions, I/O errors. *)
From Coq.Strings Require Import Byte String.
From Coq Require Import List ZArith Bool.
From Verif Require Import Base.
Import ListNotations.
Open Scope Z_scope.

(* A resolved path: its components. The absolute root is the component "/". *)
Definition path : Type := list bytes.

Inductive node : Type :=
| Dir
| File (c : bytes).

Definition fs : Type := list (path * node).

Fixpoint path_eqb (a b : path) : bool :=
  match a, b with
  | [], [] => true
  | x :: a', y :: b' => bytes_eqb x y && path_eqb a' b'
  | _, _ => false
  end.

Fixpoint fs_find (f : fs) (p : path) : option node :=
  match f with
  | [] => None
  | (q, n) :: r => if path_eqb q p then Some n else fs_find r p
  end.

(* The starting directory and the absolute root always exist. *)
Definition fs_get (f : fs) (p : path) : option node :=
  match p with
  | [] => Some Dir
  | [c] => if bytes_eqb c (lit "/") then Some Dir else fs_find f p
  | _ => fs_find f p
  end.

Fixpoint fs_del (f : fs) (p : path) : fs :=
  match f with
  | [] => []
  | (q, n) :: r => if path_eqb q p then fs_del r p else (q, n) :: fs_del r p
  end.

Definition fs_set (f : fs) (p : path) (n : node) : fs := (p, n) :: fs_del f p.

Definition parent (p : path) : path := removelast p.

Definition is_dir (f : fs) (p : path) : bool :=
  match fs_get f p with Some Dir => true | _ => false end.

(* Splitting a C path string at slashes. *)
Fixpoint split_slash (cur : bytes) (s : bytes) : list bytes :=
  match s with
  | [] => [rev cur]
  | c :: r => if Byte.eqb c "/" then rev cur :: split_slash [] r
              else split_slash (c :: cur) r
  end.

Definition is_dot (c : bytes) : bool :=
  match c with
  | [] => true
  | [b] => Byte.eqb b "."
  | _ => false
  end.

(* Path resolution: empty and "." components vanish. *)
Definition resolve (s : bytes) : path :=
  (match s with
   | c :: _ => if Byte.eqb c "/" then [lit "/"] else []
   | [] => []
   end) ++ filter (fun c => negb (is_dot c)) (split_slash [] s).

(* fopen(p, "r"): succeeds on files and directories; reading a directory
   fails, which is represented by no contents. *)
Definition fopen_r (f : fs) (p : path) : option (option bytes) :=
  match fs_get f p with
  | Some (File c) => Some (Some c)
  | Some Dir => Some None
  | None => None
  end.

(* fopen(p, "w") and "w+": create or truncate. *)
Definition fopen_w (f : fs) (p : path) : option fs :=
  match fs_get f p with
  | Some (File _) => Some (fs_set f p (File []))
  | Some Dir => None
  | None => if is_dir f (parent p) then Some (fs_set f p (File [])) else None
  end.

(* fopen(p, "r+"): the file must exist. *)
Definition fopen_rp (f : fs) (p : path) : option bytes :=
  match fs_get f p with
  | Some (File c) => Some c
  | _ => None
  end.

(* fseek(pos) followed by fwrite(l) on contents c: bytes between the old end
   and pos become zero; writing nothing changes nothing. *)
Definition pwrite (c : bytes) (pos : nat) (l : bytes) : bytes :=
  match l with
  | [] => c
  | _ => firstn pos (c ++ repeat x00 (pos - length c)) ++ l ++ skipn (pos + length l) c
  end.

(* fseek(pos) followed by fread of n bytes: what is available. *)
Definition pread (c : bytes) (pos n : nat) : bytes := firstn n (skipn pos c).

(* mkdir(2) *)
Inductive mkdir_res : Type := MkOk (f : fs) | MkExist | MkFail.
Definition mkdir (f : fs) (p : path) : mkdir_res :=
  match fs_get f p with
  | Some _ => MkExist
  | None => if is_dir f (parent p) then MkOk (fs_set f p Dir) else MkFail
  end.
