(** * Vocabulary of the statements about FEM files: how a reader of the file expands an id list. *)
From Coq Require Import ZArith List Lia Bool Ascii String.
From Verif Require Import Base Text.
Import ListNotations.
Local Open Scope Z_scope.

(** a, a+1, ..., b *)
Definition interval (a b : Z) : list Z := map (fun k => a + Z.of_nat k) (seq 0 (Z.to_nat (b - a + 1))).
(** The part before the first dash, and the part after it if there is a dash. *)
Fixpoint cut_dash (t : bytes) : bytes * option bytes :=
  match t with
  | [] => ([], None)
  | c :: r => if Ascii.eqb c "-" then ([], Some r)
              else (c :: fst (cut_dash r), snd (cut_dash r))
  end.
(** Value of a decimal text. *)
Definition value (t : bytes) : Z := match parse_digits t with Some v => v | None => 0 end.
(** A token is a number or two numbers separated by a dash. *)
Definition decode_token (t : bytes) : list Z :=
  match cut_dash t with
  | (a, None) => [value a]
  | (a, Some b) => interval (value a) (value b)
  end.
(** A chunk is a list of tokens separated by blanks. *)
Definition decode_chunk (c : bytes) : list Z := flat_map decode_token (words c).
Definition decode_chunks (cs : list bytes) : list Z := flat_map decode_chunk cs.

(** What is assumed of numbers: comparison is an equivalence (no NaN), sorting and iterating over a
    table reorder without loss, printed texts are tokens. *)
From Coq Require Import Permutation.
From Verif Require Import FemModel.
Record femval_ok (V : FemVal) : Prop := {
  veqb_refl : forall a, veqb V a a = true;
  veqb_sym : forall a b, veqb V a b = veqb V b a;
  veqb_trans : forall a b c, veqb V a b = true -> veqb V b c = true -> veqb V a c = true;
  vsort_perm : forall l, Permutation (vsort V l) l;
  viter_perm : forall (T : Type) (m : list (val V * T)), Permutation (viter V T m) m;
  siter_perm : forall (T : Type) (m : list (bytes * T)), Permutation (siter V T m) m;
  vfix_token : forall a, token (vfix V a);
  vos_token : forall a, token (vos V a)
}.
(** An entry line: a text followed by an id list. *)
Definition entry_text (l : bytes) : bytes := hd [] (words l).
Definition entry_ids (l : bytes) : list Z := flat_map decode_token (tl (words l)).
(** All the numbers 1..n. *)
Definition all_ids (n : nat) : list Z := map (fun k => Z.of_nat k + 1) (seq 0 n).
(** The lines of a text. *)
Definition text_lines (t : bytes) : list bytes := fst (cut [] t).
(** A line of the nodal incidence section: five blanks and a digit. *)
Definition is_incidence (l : bytes) : bool :=
  match l with
  | a :: b :: c :: d :: e :: f :: _ => beq [a; b; c; d; e] (add_spaces 5) && is_digit f
  | _ => false
  end.
