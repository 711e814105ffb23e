(** * Texts of finite doubles, seen as rational numbers.

    Not in /repo: [std::to_string( double )] is printf with format f (six digits after the point);
    the exact value is rounded to the nearest, ties to even (glibc). *)
From Coq Require Import ZArith List Lia Bool Ascii String QArith.
From Verif Require Import Base Text.
Import ListNotations.
Local Open Scope string_scope.
Local Open Scope list_scope.
Local Open Scope Z_scope.

(** Nearest integer to n/d, ties to even. *)
Definition round_half_even (n : Z) (d : positive) : Z :=
  let f := (2 * n + Zpos d) / (2 * Zpos d) in
  if ((2 * n + Zpos d) mod (2 * Zpos d) =? 0) && Z.odd f then f - 1 else f.
(** [k] digits, with leading zeros. *)
Fixpoint pad (k : nat) (z : Z) : bytes :=
  match k with O => [] | S j => pad j (z / 10) ++ [digit_of (z mod 10)] end.
(** [std::to_string( double )]. *)
Definition fixed6 (q : Q) : bytes :=
  let n := round_half_even (Z.abs (Qnum q) * 1000000) (Qden q) in
  (if Qnum q <? 0 then [("-"%char : ascii)] else []) ++ show (n / 1000000) ++ "."%char :: pad 6 (n mod 1000000).
