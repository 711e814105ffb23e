(** * HEADER and coordinate system sections of any GOCAD file: specification, and what the readers
    [read_header] and [read_CRS] return for them. *)
From Coq Require Import ZArith List Lia Bool Ascii String.
From Verif Require Import Base Text TextFacts GocadModel Spec GocadFacts.
Import ListNotations.
Local Open Scope string_scope.
Local Open Scope list_scope.
Local Open Scope Z_scope.

(** None of the lines starts with the keyword. *)
Definition without (kw : bytes) (ls : list bytes) : Prop := Forall (fun l => starts_with l kw = false) ls.

(** The name of a header: the text after the last "name:", cut in words, re-joined and unquoted. *)
Fixpoint last_name (n : option bytes) (body : list bytes) : option bytes :=
  match body with
  | [] => n
  | l :: r => last_name (match after_first "name:" l with Some t => Some (normalise t) | None => n end) r
  end.
Definition header_section (hs : list bytes) (name : option bytes) : Prop :=
  exists h body close, hs = h :: body ++ [close] /\ starts_with h "HEADER" = true /\
    without "}" body /\ starts_with close "}" = true /\ name = last_name None body.

(** The lines of a coordinate system; [up] tells whether z is an elevation. *)
Inductive crs_body : bool -> list bytes -> bool -> Prop :=
| CB_nil up : crs_body up [] up
| CB_z up l w r up' : string_split l = [lit "ZPOSITIVE"; w] -> w <> [QUOTE] ->
    starts_with l "END_ORIGINAL_COORDINATE_SYSTEM" = false ->
    crs_body (beq w "Elevation") r up' -> crs_body up (l :: r) up'
| CB_other up l t u ts r up' : string_split l = t :: u :: ts -> t <> [QUOTE] -> t <> lit "ZPOSITIVE" ->
    balanced (string_split l) -> starts_with l "END_ORIGINAL_COORDINATE_SYSTEM" = false ->
    crs_body up r up' -> crs_body up (l :: r) up'.
(** Absent: z is an elevation. *)
Definition crs_section (cs : list bytes) (up : bool) (rest : list bytes) : Prop :=
  (cs = [] /\ up = true /\ match rest with l :: _ => starts_with l "GOCAD_ORIGINAL_COORDINATE_SYSTEM" = false | [] => False end) \/
  (exists c0 body ce, cs = c0 :: body ++ [ce] /\ starts_with c0 "GOCAD_ORIGINAL_COORDINATE_SYSTEM" = true /\
     starts_with ce "END_ORIGINAL_COORDINATE_SYSTEM" = true /\ crs_body true body up).

Lemma header_loop_body body close rest : without "}" body -> starts_with close "}" = true ->
  forall n, header_loop n (body ++ close :: rest) = Ok (last_name n body, rest).
Proof.
  intros H Hc. induction H as [|l body Hl _ IH]; intros n; cbn [app header_loop last_name].
  - now rewrite Hc.
  - rewrite Hl. destruct (after_first "name:" l) as [t|]; rewrite IH; reflexivity.
Qed.
Lemma read_header_section hs name rest b : header_section hs name ->
  read_header (mkStream (hs ++ rest) b) = Ok (name, mkStream rest b).
Proof.
  intros (h & body & close & -> & Hh & Hb & Hc & ->). unfold read_header, check_keyword. cbn [app pending]. rewrite Hh.
  cbn [bind pending nl]. rewrite <- app_assoc. cbn [app]. now rewrite header_loop_body.
Qed.
Lemma balanced_merge2 (t u : bytes) (ts : list bytes) : t <> [QUOTE] -> balanced (t :: u :: ts) ->
  exists x m, merge_quotes None (t :: u :: ts) = Ok (t :: x :: m).
Proof.
  intros Ht Hb. inversion Hb as [|? ? _ Hr E|body c r Hn Hc Hr E]; subst; [|congruence].
  destruct (balanced_ok _ Hr) as [m Hm]. cbn [merge_quotes] in *.
  rewrite (proj2 (beq_neq t Q1)) by assumption.
  assert (Z : exists x m', m = x :: m').
  { destruct m as [|x m']; [|eauto]. exfalso. inversion Hr as [|? ? Hq _ E|body c r' Hn Hc _ E]; subst.
    - rewrite (proj2 (beq_neq u Q1)) in Hm by assumption. destruct (merge_quotes None ts); discriminate.
    - change (beq [QUOTE] Q1) with true in Hm. cbn iota in Hm. destruct (merge_body [] body c r' Hn Hc) as [s Es].
      assert (Em : (do m <- merge_quotes None r'; Ok (s :: m)) = Ok []) by (rewrite <- Es; exact Hm).
      destruct (merge_quotes None r'); discriminate. }
  destruct Z as (x & m' & ->). exists x, m'. now rewrite Hm.
Qed.
Lemma crs_loop_body body ce rest up up' : starts_with ce "END_ORIGINAL_COORDINATE_SYSTEM" = true -> crs_body up body up' ->
  forall crs, z_sign_positive crs = up ->
  exists crs', crs_loop crs (body ++ ce :: rest) = Ok (crs', rest) /\ z_sign_positive crs' = up'.
Proof.
  intros He H. induction H as [up|up l w r up' Hs Hw Hl _ IH|up l t u ts r up' Hs Ht Hz Hb Hl _ IH]; intros crs Hc.
  - cbn [app crs_loop]. rewrite He. eauto.
  - cbn [app crs_loop]. rewrite Hl. unfold crs_line, split_quotes. rewrite Hs. cbn [merge_quotes].
    change (beq (lit "ZPOSITIVE") Q1) with false. cbn iota. rewrite (proj2 (beq_neq w Q1)) by assumption.
    cbn [bind idx nth_error]. rewrite beq_refl. cbn [bind]. apply IH. reflexivity.
  - cbn [app crs_loop]. rewrite Hl. unfold crs_line, split_quotes. rewrite Hs in Hb |- *.
    destruct (balanced_merge2 t u ts Ht Hb) as (x & m & E). rewrite E. cbn [bind idx nth_error].
    rewrite (proj2 (beq_neq t (lit "ZPOSITIVE"))) by assumption.
    destruct (beq t "PROJECTION"); cbn [bind]; [now apply IH|].
    destruct (beq t "DATUM"); cbn [bind]; [now apply IH|].
    destruct (beq t "NAME"); cbn [bind]; now apply IH.
Qed.
Lemma read_CRS_section cs up rest b : crs_section cs up rest ->
  exists crs, read_CRS (mkStream (cs ++ rest) b) = Ok (crs, mkStream rest b) /\ z_sign_positive crs = up.
Proof.
  intros [(-> & -> & H)|(c0 & body & ce & -> & H0 & He & Hb)]; unfold read_CRS, next_if; cbn [app pending].
  - destruct rest as [|l r]; [contradiction|]. rewrite H. eauto.
  - rewrite H0. cbn [pending nl]. rewrite <- app_assoc. cbn [app].
    destruct (crs_loop_body body ce rest true up He Hb default_crs eq_refl) as (crs & E & Hz).
    exists crs. rewrite E. split; [reflexivity|exact Hz].
Qed.
