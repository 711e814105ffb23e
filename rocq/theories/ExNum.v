(** * A concrete number system: signed integers in decimal.  It is only used to exhibit
    instances of the theorems and to compute refutation witnesses. *)
From Coq Require Import ZArith List Lia Bool Ascii String.
From Verif Require Import Base Text TextFacts Spec.
Import ListNotations.
Local Open Scope Z_scope.

Definition zshow (z : Z) : bytes := if z <? 0 then "-"%char :: show (- z) else show z.
Definition zread (l : bytes) : option Z :=
  match strip l with
  | c :: t => if Ascii.eqb c "-"%char then option_map Z.opp (parse_digits t)
              else parse_digits (c :: t)
  | [] => None
  end.
Definition ExNum : Num := mkNum Z zread zshow zshow Z.opp Z.add (-99999) 0.

Lemma zshow_token z : token (zshow z).
Proof.
  unfold zshow. destruct (z <? 0) eqn:E.
  - apply Z.ltb_lt in E. destruct (show_token (- z) ltac:(lia)) as [_ H2]. split; [discriminate|].
    constructor; [reflexivity|assumption].
  - apply Z.ltb_ge in E. apply show_token; lia.
Qed.
Lemma zread_zshow z : zread (zshow z) = Some z.
Proof.
  unfold zread. rewrite strip_no_space by apply zshow_token. unfold zshow.
  destruct (z <? 0) eqn:E.
  - apply Z.ltb_lt in E. destruct (show_spec (- z) ltac:(lia)) as [_ [_ H]].
    rewrite Ascii.eqb_refl, H. cbn [option_map]. f_equal. lia.
  - apply Z.ltb_ge in E. destruct (show_spec z E) as [H1 [H2 H3]].
    destruct (show z) as [|c t]; [congruence|]. inversion H2 as [|? ? Hc _]; subst.
    replace (Ascii.eqb c "-"%char) with false; [assumption|].
    symmetry. apply Ascii.eqb_neq. intros ->. discriminate.
Qed.
Lemma ExNum_ok : num_ok ExNum.
Proof.
  constructor; cbn [pt_text os_text atod ExNum num].
  - exact zshow_token.
  - exact zshow_token.
  - intros v. exists v. apply zread_zshow.
  - intros v. exists v. apply zread_zshow.
Qed.
