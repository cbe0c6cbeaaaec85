(* The printf and scanf directives used by the header and attribute files. *)
From Coq.Strings Require Import Byte String.
From Coq Require Import List ZArith Bool.
From Verif Require Import Base Dtype.
Import ListNotations.
Open Scope Z_scope.

(* ------------------------------------------------------------------ *)
(* Printing. *)
Definition digit (d : Z) : byte := z2b (b2z "0" + d).
(* digits of 0..15 in upper-case hexadecimal *)
Definition xdigit (d : Z) : byte :=
  if d <? 10 then z2b (b2z "0" + d) else z2b (b2z "A" + (d - 10)).

(* Digits of z >= 0 in the given base, least significant first, at least one
   digit. Fuel: 64 digits suffice for any 64-bit number in base >= 2. *)
Fixpoint digits_lsf (base : Z) (dig : Z -> byte) (fuel : nat) (z : Z) : bytes :=
  match fuel with
  | O => []
  | S k => dig (z mod base) ::
           (if z / base =? 0 then [] else digits_lsf base dig k (z / base))
  end.
Definition print_unsigned (z : Z) : bytes := rev (digits_lsf 10 digit 64 z).
(* "%d" / "%td" (signed) of a number that fits the type *)
Definition print_signed (z : Z) : bytes :=
  if z <? 0 then "-"%byte :: print_unsigned (- z) else print_unsigned z.
(* "%06X": at least 6 hexadecimal digits *)
Definition print_06X (z : Z) : bytes :=
  let d := rev (digits_lsf 16 xdigit 64 z) in
  repeat "0"%byte (6 - length d) ++ d.

(* ------------------------------------------------------------------ *)
(* Scanning. A directive consumes a prefix of the stream; None: matching
   failure or end of input. *)
Definition xval (c : byte) : option Z :=
  if is_digit c then Some (b2z c - b2z "0")
  else if (b2z "A" <=? b2z c) && (b2z c <=? b2z "F") then Some (b2z c - b2z "A" + 10)
  else if (b2z "a" <=? b2z c) && (b2z c <=? b2z "f") then Some (b2z c - b2z "a" + 10)
  else None.

(* Literal characters of the format string; a blank in the format matches any
   amount of white space. *)
Fixpoint scan_lit (f : bytes) (s : bytes) : option bytes :=
  match f with
  | [] => Some s
  | c :: f' =>
      if Byte.eqb c " " then scan_lit f' (drop_space s)
      else match s with
           | d :: s' => if Byte.eqb c d then scan_lit f' s' else None
           | [] => None
           end
  end.

(* "%s": longest run of non-blank characters. *)
Fixpoint token (s : bytes) : bytes * bytes :=
  match s with
  | c :: r => if is_space c then ([], s)
              else let '(t, r') := token r in (c :: t, r')
  | [] => ([], [])
  end.
Definition scan_s (s : bytes) : option (bytes * bytes) :=
  match token (drop_space s) with
  | ([], _) => None
  | (t, r) => Some (t, r)
  end.

(* Run of digits in a base: value, number of digits, rest. *)
Fixpoint scan_digits (base : Z) (acc : Z) (n : nat) (width : nat) (s : bytes)
  : Z * nat * bytes :=
  match width with
  | O => (acc, n, s)
  | S w =>
      match s with
      | c :: r =>
          match xval c with
          | Some d => if d <? base then scan_digits base (base * acc + d) (S n) w r
                      else (acc, n, s)
          | None => (acc, n, s)
          end
      | [] => (acc, n, s)
      end
  end.

(* Optional sign, then decimal digits (at least one). No field width. *)
Definition scan_dec (s : bytes) : option (Z * bytes) :=
  let s := drop_space s in
  let '(neg, s) :=
    match s with
    | c :: r => if Byte.eqb c "-" then (true, r)
                else if Byte.eqb c "+" then (false, r) else (false, s)
    | [] => (false, s)
    end in
  match scan_digits 10 0 0 (length s) s with
  | (_, O, _) => None
  | (v, _, r) => Some (if neg then - v else v, r)
  end.

(* strtol / strtoul saturate. *)
Definition sat_long (v : Z) : Z :=
  if 2 ^ 63 <=? v then 2 ^ 63 - 1 else if v <? - 2 ^ 63 then - 2 ^ 63 else v.
Definition sat_ulong (v : Z) : Z :=
  if (2 ^ 64 <=? v) || (v <=? - 2 ^ 64) then 2 ^ 64 - 1 else u64 v.

(* "%d" into int (glibc: strtol then truncation) *)
Definition scan_d (s : bytes) : option (Z * bytes) :=
  match scan_dec s with Some (v, r) => Some (s32 (sat_long v), r) | None => None end.
(* "%td" into a size_t object: the stored bits read as unsigned *)
Definition scan_td (s : bytes) : option (Z * bytes) :=
  match scan_dec s with Some (v, r) => Some (u64 (sat_long v), r) | None => None end.
(* "%u" into unsigned int *)
Definition scan_u (s : bytes) : option (Z * bytes) :=
  match scan_dec s with Some (v, r) => Some (u32 (sat_ulong v), r) | None => None end.

(* "%06X": at most 6 characters including sign and 0x prefix. *)
Definition scan_06X (s : bytes) : option (Z * bytes) :=
  let s := drop_space s in
  let '(neg, w, s) :=
    match s with
    | c :: r => if Byte.eqb c "-" then (true, 5%nat, r)
                else if Byte.eqb c "+" then (false, 5%nat, r) else (false, 6%nat, s)
    | [] => (false, 6%nat, s)
    end in
  let '(n0, w, s) :=
    match s with
    | c :: x :: r =>
        if Byte.eqb c "0" && (Byte.eqb x "x" || Byte.eqb x "X")
        then (1%nat, (w - 2)%nat, r) else (0%nat, w, s)
    | _ => (0%nat, w, s)
    end in
  match scan_digits 16 0 n0 w s with
  | (_, O, _) => None
  | (v, _, r) => Some (s32 (sat_ulong (if neg then - v else v)), r)
  end.
