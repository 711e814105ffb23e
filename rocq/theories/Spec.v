(** * Vocabulary of the property statements.  No model definition is used here except
    the byte strings, numbers and tokens of [Text.v]. *)
From Coq Require Import ZArith List Lia Bool Ascii String.
From Verif Require Import Base Text.
Import ListNotations.
Local Open Scope Z_scope.

(** What is assumed of the number printers and of the number parser: printed
    text is one token and the parser accepts it. *)
Record num_ok (F : Num) : Prop := {
  pt_token : forall v, token (pt_text F v);
  os_token : forall v, token (os_text F v);
  pt_parses : forall v, exists v', atod F (pt_text F v) = Some v';
  os_parses : forall v, exists v', atod F (os_text F v) = Some v'
}.

(** [v'] is what one gets by printing [v] as a coordinate and reading it back. *)
Definition reread_coord (F : Num) (v v' : num F) : Prop := atod F (pt_text F v) = Some v'.
Definition reread_value (F : Num) (v v' : num F) : Prop := atod F (os_text F v) = Some v'.
Definition reread_point (F : Num) (p p' : num F * num F * num F) : Prop :=
  let '(x, y, z) := p in let '(x', y', z') := p' in
  reread_coord F x x' /\ reread_coord F y y' /\ reread_coord F z z'.

(** A word without quote, and a clean name: words separated by single spaces. *)
Definition word (w : bytes) : Prop := token w /\ ~ In QUOTE w.
Definition clean (n : bytes) : Prop :=
  exists ws, ws <> [] /\ Forall word ws /\ n = join ws.

(** What is left of a free text once cut in words, re-joined and unquoted. *)
Definition normalise (n : bytes) : bytes :=
  filter (fun c => negb (Ascii.eqb c QUOTE)) (join (string_split n)).

(** Token lists in which every stand-alone quote is closed by a later token that ends with a
    quote. *)
Definition closes (t : bytes) : Prop := exists p, t = p ++ [QUOTE].
Inductive balanced : list bytes -> Prop :=
| bal_nil : balanced []
| bal_tok t r : t <> [QUOTE] -> balanced r -> balanced (t :: r)
| bal_quote body t r : Forall (fun b => ~ closes b) body -> closes t -> balanced r ->
    balanced ([QUOTE] :: body ++ t :: r).

(** The text where every LF is replaced by CR LF. *)
Fixpoint to_crlf (t : bytes) : bytes :=
  match t with
  | [] => []
  | c :: r => if Ascii.eqb c LF then CR :: LF :: to_crlf r else c :: to_crlf r
  end.
