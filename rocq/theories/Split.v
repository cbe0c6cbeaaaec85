(* The automatic partition of a block into files. *)
From Coq.Strings Require Import Byte String.
From Coq Require Import List ZArith Bool.
From Verif Require Import Base.
Import ListNotations.
Open Scope Z_scope.

(* bigfile-mpi.c:106-111 and 262-267: fsize[i] = size * (i + 1) / Nfile -
   size * i / Nfile in size_t arithmetic. Nfile = 0 gives no entries. *)
Definition split_entry (size n i : Z) : Z :=
  u64 (u64 (size * (i + 1)) / n - u64 (size * i) / n).
Definition even_split (size n : Z) : list Z :=
  map (fun i => split_entry size n (Z.of_nat i)) (seq 0 (Z.to_nat n)).

(* pyxbigfile.pyx:391-393, 448-450, 651-653: the same with numpy intp (64-bit
   signed) arrays, floor division. *)
Definition np_entry (size n i : Z) : Z :=
  s64 (s64 ((i + 1) * size) / n - s64 (i * size) / n).
Definition np_split (size n : Z) : list Z :=
  map (fun i => np_entry size n (Z.of_nat i)) (seq 0 (Z.to_nat n)).
