(** * Properties of the quoted-string codec (C01, C02). *)
From Coq Require Import ZArith List Lia Bool Ascii String.
From Verif Require Import Base Text TextFacts GocadModel Spec GocadFacts.
Import ListNotations.
Local Open Scope string_scope.
Local Open Scope list_scope.
Local Open Scope Z_scope.

(** C01.  The PROPERTIES line written for any list of clean names is read back as exactly
    those names, in order. *)
Theorem C01_quoted_names_roundtrip :
  forall names : list bytes, Forall clean names ->
    split_quotes (lit "PROPERTIES" ++ spaced (map write_quoted names))
    = Ok (lit "PROPERTIES" :: names).
Proof.
  intros names H. apply split_quotes_names; auto.
  - apply tokenb_ok. reflexivity.
  - discriminate.
Qed.
Print Assumptions C01_quoted_names_roundtrip.

(** Non-trivial instance: one-word and several-word names mixed. *)
Example C01_instance :
  Forall clean [lit "default property"; lit "def-prop"; lit "a b c"] /\
  lit "PROPERTIES" ++ spaced (map write_quoted [lit "default property"; lit "def-prop"; lit "a b c"])
  = lit "PROPERTIES "" default property"" def-prop "" a b c""".
Proof.
  split; [apply cleanb_all|]; reflexivity.
Qed.

(** C02.  False of the code: a line that opens a quotation and does not close it makes
    the reader access the token list out of bounds instead of throwing. *)
Theorem C02_missing_quote_refuted :
  exists line : bytes, split_quotes line = UB.
Proof. exists (lit "NAME "" gocad Local"). reflexivity. Qed.
Print Assumptions C02_missing_quote_refuted.

(** C02, what does hold: for every line, reading succeeds iff every stand-alone quote is
    closed; otherwise the access is out of bounds.  The documented exception is
    never raised. *)
Theorem C02_missing_quote_partial :
  forall line : bytes,
    (balanced (string_split line) <-> exists tokens, split_quotes line = Ok tokens) /\
    (~ balanced (string_split line) <-> split_quotes line = UB).
Proof. exact split_quotes_balanced. Qed.
Print Assumptions C02_missing_quote_partial.
Example C02_instance :
  exists line, balanced (string_split line) /\ split_quotes line = Ok [lit "NAME"; lit "gocad Local"; lit "x"].
Proof.
  exists (lit "NAME "" gocad Local"" x"). split; [|reflexivity].
  apply (proj2 (proj1 (split_quotes_balanced _))). eexists. reflexivity.
Qed.
