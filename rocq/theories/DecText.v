(** * The default text of a double, and reading it.

    Not in /repo: the writers use [operator<<( ostream, double )] with the default settings (mesh/pl_output.cpp 133-135,
    mesh/fem_output.cpp 203-205) or [Point::string] (OpenGeode, absl::StrAppend; mesh/ts_output.cpp 163, mesh/vs_output.cpp
    160): printf with format g, six significant digits.  The finite double is seen as a rational number. *)
From Coq Require Import ZArith List Lia Bool Ascii String QArith Qpower Qabs Lqa.
From Verif Require Import Base Text TextFacts NumText.
Import ListNotations.
Local Open Scope string_scope.
Local Open Scope list_scope.
Local Open Scope Z_scope.

(** ** Writing *)
(** The exponent of the first significant digit of n/d (positive). *)
Definition exponent (n : Z) (d : positive) : Z :=
  let e := Z.of_nat (List.length (show n)) - Z.of_nat (List.length (show (Zpos d))) in
  if Zpos d * 10 ^ Z.max e 0 <=? n * 10 ^ Z.max (- e) 0 then e else e - 1.
(** Six significant digits [m] and the exponent [x]: about m 10^(x - 5). *)
Definition six_digits (n : Z) (d : positive) : Z * Z :=
  let x := exponent n d in
  let m := round_half_even (n * 10 ^ Z.max (5 - x) 0) (d * Z.to_pos (10 ^ Z.max (x - 5) 0)) in
  if m =? 1000000 then (100000, x + 1) else (m, x).
(** Trailing zeros are removed, and the point if no digit follows it. *)
Fixpoint strip_zeros (l : bytes) : bytes :=
  match l with
  | [] => []
  | c :: r => match strip_zeros r with
              | [] => if Ascii.eqb c "0" then [] else [c]
              | r => c :: r
              end
  end.
Definition after_point (l : bytes) : bytes := match strip_zeros l with [] => [] | r => "."%char :: r end.
Definition text_exponent (x : Z) : bytes :=
  "e"%char :: (if x <? 0 then "-"%char else "+"%char) :: (if Z.abs x <? 100 then pad 2 (Z.abs x) else show (Z.abs x)).
Definition text_digits (m x : Z) : bytes :=
  if (-4 <=? x) && (x <? 6) then
    let k := Z.to_nat (5 - x) in show (m / 10 ^ (5 - x)) ++ after_point (pad k (m mod 10 ^ (5 - x)))
  else show (m / 100000) ++ after_point (pad 5 (m mod 100000)) ++ text_exponent x.
Definition general6 (q : Q) : bytes :=
  if Qnum q =? 0 then lit "0"
  else
    let '(m, x) := six_digits (Z.abs (Qnum q)) (Qden q) in
    (if Qnum q <? 0 then [("-"%char : ascii)] else []) ++ text_digits m x.

(** ** Reading: the number denoted by a decimal text *)
Fixpoint span_digits (l : bytes) : bytes * bytes :=
  match l with
  | c :: r => if is_digit c then let '(a, b) := span_digits r in (c :: a, b) else ([], l)
  | [] => ([], [])
  end.
Definition read_exponent (l : bytes) : option Z :=
  match l with
  | [] => Some 0
  | c :: s :: ds =>
      if Ascii.eqb c "e" then
        match ds with
        | [] => None
        | _ => match digits_val 0 ds with
               | Some e => if Ascii.eqb s "-" then Some (- e) else if Ascii.eqb s "+" then Some e else None
               | None => None
               end
        end
      else None
  | _ => None
  end.
Definition read_unsigned (l : bytes) : option Q :=
  let '(a, l) := span_digits l in
  let '(b, l) := match l with c :: r => if Ascii.eqb c "." then span_digits r else ([], l) | [] => ([], l) end in
  match a, digits_val 0 (a ++ b), read_exponent l with
  | _ :: _, Some n, Some e => Some (inject_Z n * Qpower 10 (e - Z.of_nat (List.length b)))%Q
  | _, _, _ => None
  end.
Definition read_decimal (l : bytes) : option Q :=
  match l with
  | c :: r => if Ascii.eqb c "-" then match read_unsigned r with Some q => Some (- q)%Q | None => None end else read_unsigned l
  | [] => None
  end.
