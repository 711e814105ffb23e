(** * A concrete instance of the numbers of the FEM writer: rationals. *)
From Coq Require Import ZArith List Lia Bool Ascii String QArith Permutation.
From Verif Require Import Base Text TextFacts NumText FemModel FemSpec.
Import ListNotations.
Local Open Scope Z_scope.

Fixpoint insert (q : Q) (l : list Q) : list Q :=
  match l with
  | [] => [q]
  | x :: r => if Qle_bool q x then q :: l else x :: insert q r
  end.
Fixpoint isort (l : list Q) : list Q := match l with [] => [] | q :: r => insert q (isort r) end.
Lemma insert_perm q l : Permutation (insert q l) (q :: l).
Proof.
  induction l as [|x r IH]; cbn [insert]; [reflexivity|]. destruct (Qle_bool q x); [reflexivity|].
  rewrite IH. apply perm_swap.
Qed.
Lemma isort_perm l : Permutation (isort l) l.
Proof. induction l as [|q r IH]; cbn [isort]; [reflexivity|]. rewrite insert_perm. now constructor. Qed.
Definition ExFem : FemVal :=
  mkFemVal Q Qeq_bool (fun q => Qnum q <? 0) (fun q => 0 <? Qnum q) fixed6 fixed6 isort (fun _ m => m) (fun _ m => m).
Lemma pad_digits k z : Forall (fun c => is_digit c = true) (pad k z).
Proof.
  revert z. induction k as [|k IH]; intros z; cbn [pad]; [constructor|]. apply Forall_app. split; [apply IH|].
  constructor; [|constructor]. apply digit_of_is_digit. apply Z.mod_pos_bound. lia.
Qed.
Lemma round_nonneg n d : 0 <= n -> 0 <= round_half_even n d.
Proof.
  intros H. unfold round_half_even. set (f := (2 * n + Zpos d) / (2 * Zpos d)).
  assert (0 <= f) by (apply Z.div_pos; lia).
  destruct ((_ =? 0) && Z.odd f) eqn:E; [|assumption]. apply andb_true_iff in E as [_ E].
  destruct (Z.eq_dec f 0) as [->|]; [discriminate|lia].
Qed.
Lemma fixed6_token q : token (fixed6 q).
Proof.
  unfold fixed6. set (n := round_half_even _ _).
  assert (0 <= n) by (apply round_nonneg; lia).
  assert (0 <= n / 1000000) by (apply Z.div_pos; lia).
  destruct (show_token (n / 1000000)) as [N S]; [assumption|].
  assert (P : no_space (show (n / 1000000) ++ "."%char :: pad 6 (n mod 1000000))).
  { apply Forall_app. split; [assumption|]. constructor; [reflexivity|].
    eapply Forall_impl; [|apply pad_digits]. intros. now apply is_digit_not_space. }
  destruct (Qnum q <? 0); cbn [app].
  - split; [discriminate|]. constructor; [reflexivity|assumption].
  - split; [|assumption]. now destruct (show (n / 1000000)).
Qed.
Lemma ExFem_ok : femval_ok ExFem.
Proof.
  constructor; cbn [ExFem val veqb vneg vpos vfix vos vsort viter siter].
  - intros a. apply Qeq_bool_iff. reflexivity.
  - intros a b. apply eq_true_iff_eq. rewrite !Qeq_bool_iff. split; apply Qeq_sym.
  - intros a b c. rewrite !Qeq_bool_iff. apply Qeq_trans.
  - apply isort_perm.
  - reflexivity.
  - reflexivity.
  - apply fixed6_token.
  - apply fixed6_token.
Qed.
