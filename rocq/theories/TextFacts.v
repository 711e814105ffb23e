(** * Facts about the text primitives (no model definitions here). *)
From Coq Require Import ZArith List Lia Bool Ascii String.
From Verif Require Import Base Text.
Import ListNotations.
Local Open Scope Z_scope.

Lemma beq_eq a b : beq a b = true <-> a = b.
Proof.
  revert b; induction a as [|x s IH]; destruct b as [|y t]; simpl;
    split; intros H; try discriminate; auto.
  - apply andb_true_iff in H as [H1 H2]. apply Ascii.eqb_eq in H1. apply IH in H2. congruence.
  - injection H as -> ->. apply andb_true_iff; split; [apply Ascii.eqb_refl|now apply IH].
Qed.
Lemma beq_refl a : beq a a = true.
Proof. now apply beq_eq. Qed.
Lemma beq_neq a b : beq a b = false <-> a <> b.
Proof.
  split.
  - intros H E. apply beq_eq in E. congruence.
  - intros H. destruct (beq a b) eqn:E; auto. apply beq_eq in E. contradiction.
Qed.
Lemma beq_sym a b : beq a b = beq b a.
Proof.
  destruct (beq a b) eqn:E.
  - apply beq_eq in E; subst. symmetry; apply beq_refl.
  - destruct (beq b a) eqn:E2; auto. apply beq_eq in E2; subst. rewrite beq_refl in E; discriminate.
Qed.
Lemma bytes_dec (a b : bytes) : {a = b} + {a <> b}.
Proof. apply list_eq_dec, ascii_dec. Qed.

(** ** Digits *)
Lemma nat_of_digit z : 0 <= z < 10 -> nat_of_ascii (digit_of z) = Z.to_nat (48 + z).
Proof. intros H. unfold digit_of. apply nat_ascii_embedding. lia. Qed.
Lemma digit_of_is_digit z : 0 <= z < 10 -> is_digit (digit_of z) = true.
Proof.
  intros H. unfold is_digit. rewrite nat_of_digit by lia.
  apply andb_true_iff; split; apply Nat.leb_le; lia.
Qed.
Lemma digit_val_of z : 0 <= z < 10 -> digit_val (digit_of z) = z.
Proof. intros H. unfold digit_val. rewrite nat_of_digit by lia. lia. Qed.
Lemma is_digit_not_space c : is_digit c = true -> isspace c = false.
Proof.
  unfold is_digit, isspace. intros H. apply andb_true_iff in H as [H1 H2].
  apply Nat.leb_le in H1, H2. apply orb_false_iff; split.
  - apply Nat.eqb_neq; lia.
  - apply andb_false_iff; right. apply Nat.leb_gt; lia.
Qed.

Lemma digits_val_app acc a b :
  digits_val acc (a ++ b) =
  match digits_val acc a with Some v => digits_val v b | None => None end.
Proof.
  revert acc; induction a as [|c t IH]; intros acc; simpl; auto.
  destruct (is_digit c); auto.
Qed.

Lemma show_fuel_spec f z : 0 <= z < 2 ^ Z.of_nat f ->
  (f <> 0)%nat ->
  show_fuel f z <> [] /\ Forall (fun c => is_digit c = true) (show_fuel f z)
  /\ digits_val 0 (show_fuel f z) = Some z.
Proof.
  revert z; induction f as [|f IH]; intros z Hz Hf; [congruence|].
  cbn [show_fuel]. destruct (z <? 10) eqn:E.
  - apply Z.ltb_lt in E. split; [discriminate|]. split.
    + constructor; [|constructor]. apply digit_of_is_digit; lia.
    + cbn [digits_val]. rewrite digit_of_is_digit by lia. rewrite digit_val_of by lia. f_equal; lia.
  - apply Z.ltb_ge in E.
    assert (Hq : 0 <= z / 10 < 2 ^ Z.of_nat f).
    { split; [apply Z.div_pos; lia|]. apply Z.div_lt_upper_bound; [lia|].
      replace (Z.of_nat (S f)) with (Z.of_nat f + 1) in Hz by lia.
      rewrite Z.pow_add_r in Hz by lia. lia. }
    destruct f as [|f'].
    { simpl in Hq. assert (1 <= z / 10) by (apply Z.div_le_lower_bound; lia). lia. }
    destruct (IH (z / 10) Hq ltac:(lia)) as [H1 [H2 H3]].
    assert (Hm : 0 <= z mod 10 < 10) by (apply Z.mod_pos_bound; lia).
    split; [destruct (show_fuel (S f') (z / 10)); discriminate|]. split.
    + apply Forall_app; split; auto. constructor; [|constructor]. now apply digit_of_is_digit.
    + rewrite digits_val_app, H3. cbn [digits_val].
      rewrite digit_of_is_digit, digit_val_of by lia. f_equal.
      rewrite (Z.div_mod z 10) at 3 by lia. lia.
Qed.

Lemma show_spec z : 0 <= z ->
  show z <> [] /\ Forall (fun c => is_digit c = true) (show z) /\ parse_digits (show z) = Some z.
Proof.
  intros Hz. unfold show.
  assert (H : 0 <= z < 2 ^ Z.of_nat (S (Z.to_nat (Z.log2 z)))).
  { split; [lia|]. rewrite Nat2Z.inj_succ, Z2Nat.id by apply Z.log2_nonneg.
    destruct (Z.eq_dec z 0) as [->|]; [reflexivity|]. apply Z.log2_spec; lia. }
  destruct (show_fuel_spec _ _ H ltac:(lia)) as [H1 [H2 H3]].
  repeat split; auto. unfold parse_digits.
  destruct (show_fuel _ z); [congruence|assumption].
Qed.

Lemma show_digits z : 0 <= z -> Forall (fun c => is_digit c = true) (show z).
Proof. intros; now apply show_spec. Qed.
Lemma show_token z : 0 <= z -> token (show z).
Proof.
  intros Hz. destruct (show_spec z Hz) as [H1 [H2 _]]. split; auto.
  eapply Forall_impl; [|exact H2]. intros; now apply is_digit_not_space.
Qed.

(** ** Stripping and splitting *)
Lemma drop_while_none p l : Forall (fun c => p c = false) l -> drop_while p l = l.
Proof. destruct 1 as [|c t H]; simpl; auto. now rewrite H. Qed.

Lemma no_space_rev l : no_space l -> no_space (rev l).
Proof. unfold no_space. rewrite !Forall_forall. intros H x Hx. apply H. now apply in_rev. Qed.

Lemma strip_no_space l : no_space l -> strip l = l.
Proof.
  intros H. unfold strip. rewrite (drop_while_none isspace (rev l)) by now apply no_space_rev.
  rewrite rev_involutive. now apply drop_while_none.
Qed.

Lemma isspace_CR : isspace CR = true. Proof. reflexivity. Qed.

(** A trailing carriage return is invisible to [string_split]. *)
Lemma strip_CR l : strip (l ++ [CR]) = strip l.
Proof. unfold strip. rewrite rev_app_distr. simpl. reflexivity. Qed.
Lemma string_split_CR l : string_split (l ++ [CR]) = string_split l.
Proof. unfold string_split. now rewrite strip_CR. Qed.

Lemma split_run_cur cur w l : Forall (fun c => is_sep c = false) w ->
  split_run cur (w ++ l) = split_run (cur ++ w) l.
Proof.
  revert cur; induction w as [|c t IH]; intros cur H; simpl.
  - now rewrite app_nil_r.
  - inversion H as [|? ? H1 H2]; subst. rewrite H1, IH by assumption. now rewrite <- app_assoc.
Qed.

Lemma sep_space c : is_sep c = true -> isspace c = true.
Proof.
  unfold is_sep. intros H. apply orb_true_iff in H as [H|H]; apply Ascii.eqb_eq in H; subst; reflexivity.
Qed.
Lemma nospace_nosep c : isspace c = false -> is_sep c = false.
Proof. intros H. destruct (is_sep c) eqn:E; auto. apply sep_space in E. congruence. Qed.
Lemma no_space_nosep l : no_space l -> Forall (fun c => is_sep c = false) l.
Proof. unfold no_space. apply Forall_impl. intros a; apply nospace_nosep. Qed.

Lemma split_run_sep cur c l : is_sep c = true -> split_run cur (c :: l) = flush cur ++ words l.
Proof. intros H. simpl. now rewrite H. Qed.

Lemma words_sep c l : is_sep c = true -> words (c :: l) = words l.
Proof. intros H. unfold words. rewrite split_run_sep by assumption. reflexivity. Qed.

Lemma words_tok_sep w c l : token w -> is_sep c = true -> words (w ++ c :: l) = w :: words l.
Proof.
  intros [Hw Hs] Hc. unfold words. rewrite split_run_cur by now apply no_space_nosep.
  simpl. rewrite Hc. destruct w; [congruence|]. reflexivity.
Qed.
Lemma words_tok w : token w -> words w = [w].
Proof.
  intros [Hw Hs]. unfold words. rewrite <- (app_nil_r w) at 1.
  rewrite split_run_cur by now apply no_space_nosep. simpl. destruct w; [congruence|reflexivity].
Qed.

(** Splitting across an explicit separator. *)
Lemma split_run_app_sep cur l c r : is_sep c = true ->
  split_run cur (l ++ c :: r) = split_run cur l ++ words r.
Proof.
  intros Hc. revert cur; induction l as [|x t IH]; intros cur; simpl.
  - now rewrite Hc.
  - destruct (is_sep x).
    + rewrite IH. now rewrite <- app_assoc.
    + now rewrite IH.
Qed.
Lemma words_app_sep l c r : is_sep c = true -> words (l ++ c :: r) = words l ++ words r.
Proof. intros H. now apply split_run_app_sep. Qed.

Lemma words_trailing_sep l c : is_sep c = true -> words (l ++ [c]) = words l.
Proof. intros H. rewrite words_app_sep by assumption. now rewrite app_nil_r. Qed.

(** Only separators as white space: the initial strip changes nothing. *)
Definition plain (l : bytes) : Prop := Forall (fun c => isspace c = true -> is_sep c = true) l.

Lemma words_drop_while l : plain l -> words (drop_while isspace l) = words l.
Proof.
  induction 1 as [|c t H HF IH]; simpl; auto.
  destruct (isspace c) eqn:E; auto. rewrite words_sep by auto. exact IH.
Qed.

Lemma drop_while_split p l : exists a, l = a ++ drop_while p l /\ Forall (fun c => p c = true) a.
Proof.
  induction l as [|c t [a [H1 H2]]]; simpl.
  - exists []; auto.
  - destruct (p c) eqn:E.
    + exists (c :: a). split; [simpl; congruence|constructor; auto].
    + exists []; auto.
Qed.

Lemma words_all_sep l b : Forall (fun c => is_sep c = true) b -> words (l ++ b) = words l.
Proof.
  intros H. revert l. induction H as [|c t Hc HF IH]; intros l.
  - now rewrite app_nil_r.
  - replace (l ++ c :: t) with ((l ++ [c]) ++ t) by (rewrite <- app_assoc; reflexivity).
    rewrite IH. now apply words_trailing_sep.
Qed.

Lemma plain_rev l : plain l -> plain (rev l).
Proof. unfold plain. rewrite !Forall_forall. intros H x Hx. apply H. now apply in_rev. Qed.

Lemma string_split_plain l : plain l -> string_split l = words l.
Proof.
  intros H. unfold string_split, strip.
  destruct (drop_while_split isspace (rev l)) as [a [Ha Hsp]].
  set (m := drop_while isspace (rev l)) in *.
  assert (El : l = rev m ++ rev a).
  { rewrite <- rev_app_distr, <- Ha. now rewrite rev_involutive. }
  assert (Hm : plain (rev m)).
  { unfold plain. rewrite El in H. apply Forall_app in H. tauto. }
  rewrite words_drop_while by assumption.
  rewrite El. rewrite words_all_sep; auto.
  rewrite El in H. apply Forall_app in H as [_ H].
  assert (Hsp' : Forall (fun c => isspace c = true) (rev a)).
  { rewrite Forall_forall in *. intros x Hx. apply Hsp. now apply in_rev. }
  rewrite Forall_forall in *. auto.
Qed.

Lemma plain_app a b : plain a -> plain b -> plain (a ++ b).
Proof. intros; apply Forall_app; split; assumption. Qed.
Lemma plain_cons c a : (isspace c = true -> is_sep c = true) -> plain a -> plain (c :: a).
Proof. intros; constructor; assumption. Qed.
Lemma plain_no_space a : no_space a -> plain a.
Proof. unfold no_space, plain. apply Forall_impl. intros c H E; congruence. Qed.
Lemma plain_token a : token a -> plain a.
Proof. intros [_ H]. now apply plain_no_space. Qed.

(** Splitting a joined list of tokens gives the tokens back. *)
Lemma plain_join ts : Forall token ts -> plain (join ts).
Proof.
  induction 1 as [|t r Ht Hr IH]; simpl; [constructor|].
  destruct r; [now apply plain_token|]. apply plain_app; [now apply plain_token|].
  apply plain_cons; auto.
Qed.
Lemma words_join ts : Forall token ts -> words (join ts) = ts.
Proof.
  induction 1 as [|t r Ht Hr IH]; simpl; [reflexivity|].
  destruct r; [now apply words_tok|].
  rewrite words_tok_sep by auto. now f_equal.
Qed.
Lemma string_split_join ts : Forall token ts -> string_split (join ts) = ts.
Proof. intros H. rewrite string_split_plain by now apply plain_join. now apply words_join. Qed.

(** Tokens produced by [string_split] are tokens when the line is plain. *)
Lemma split_run_tokens cur l : no_space cur -> plain l -> Forall token (split_run cur l).
Proof.
  revert cur; induction l as [|c t IH]; intros cur Hc Hl; simpl.
  - destruct cur; constructor; [split; [discriminate|assumption]|constructor].
  - inversion Hl as [|? ? H1 H2]; subst. destruct (is_sep c) eqn:E.
    + apply Forall_app; split; [|apply IH; [constructor|assumption]].
      destruct cur; constructor; [split; [discriminate|assumption]|constructor].
    + apply IH; auto. apply Forall_app; split; auto. constructor; [|constructor].
      destruct (isspace c); auto. specialize (H1 eq_refl). congruence.
Qed.
Lemma words_tokens l : plain l -> Forall token (words l).
Proof. intros; apply split_run_tokens; [constructor|assumption]. Qed.

(** ** Index texts *)
Lemma parse_index_show z : 0 <= z < two32 -> parse_index (show z) = Some z.
Proof.
  intros H. destruct (show_spec z ltac:(lia)) as [H1 [H2 H3]].
  unfold parse_index. rewrite strip_no_space by (apply show_token; lia).
  destruct (show z) as [|c t] eqn:E; [congruence|].
  inversion H2 as [|? ? Hc _]; subst.
  replace (Ascii.eqb c "+") with false.
  2:{ symmetry; apply Ascii.eqb_neq. intros ->. discriminate Hc. }
  rewrite H3. replace (z <? two32) with true by (symmetry; apply Z.ltb_lt; lia). reflexivity.
Qed.
Lemma string_to_index_show z : 0 <= z < two32 -> string_to_index (show z) = Ok z.
Proof. intros H. unfold string_to_index. now rewrite parse_index_show. Qed.

Lemma show_inj a b : 0 <= a -> 0 <= b -> show a = show b -> a = b.
Proof.
  intros Ha Hb E. pose proof (proj2 (proj2 (show_spec a Ha))) as H1.
  pose proof (proj2 (proj2 (show_spec b Hb))) as H2. rewrite E in H1. congruence.
Qed.

(** ** Prefix tests *)
Lemma starts_with_app p l : starts_with (p ++ l) p = true.
Proof. induction p as [|c p IH]; [destruct l; reflexivity|]. cbn [starts_with app]. now rewrite Ascii.eqb_refl, IH. Qed.
Lemma starts_with_self p : starts_with p p = true.
Proof. rewrite <- (app_nil_r p) at 1. apply starts_with_app. Qed.

Lemma starts_with_CR l p : ~ In CR p -> starts_with (l ++ [CR]) p = starts_with l p.
Proof.
  revert l; induction p as [|x p IH]; intros l H; [destruct l; reflexivity|].
  destruct l as [|y l]; simpl.
  - replace (Ascii.eqb x CR) with false; auto.
    symmetry; apply Ascii.eqb_neq. intros ->. apply H; simpl; auto.
  - destruct (Ascii.eqb x y); simpl; auto. apply IH. intros Hi; apply H; simpl; auto.
Qed.

Lemma after_first_CR p l : ~ In CR p -> p <> [] ->
  after_first p (l ++ [CR]) = option_map (fun t => t ++ [CR]) (after_first p l).
Proof.
  intros Hp Hn. induction l as [|c t IH].
  - simpl app. cbn [after_first].
    replace (starts_with [] p) with false by (destruct p; [congruence|reflexivity]).
    pose proof (starts_with_CR [] p Hp) as E. simpl app in E. rewrite E.
    replace (starts_with [] p) with false by (destruct p; [congruence|reflexivity]).
    destruct p; [congruence|]. reflexivity.
  - pose proof (starts_with_CR (c :: t) p Hp) as E. simpl app in E |- *.
    cbn [after_first]. rewrite E. destruct (starts_with (c :: t) p) eqn:S.
    + cbn [option_map]. f_equal.
      assert (List.length p <= List.length (c :: t))%nat.
      { clear -S. revert S. generalize (c :: t). induction p; intros l; simpl; [lia|].
        destruct l; [discriminate|]. intros H. apply andb_true_iff in H as [_ H].
        apply IHp in H. simpl; lia. }
      change (c :: t ++ [CR]) with ((c :: t) ++ [CR]).
      rewrite skipn_app. replace (List.length p - List.length (c :: t))%nat with 0%nat by lia.
      reflexivity.
    + exact IH.
Qed.

(** ** Lines *)
Definition is_line (l : bytes) : Prop := ~ In LF l.

Lemma cut_line cur l r : is_line l ->
  cut cur (l ++ LF :: r) = (let '(ls, b) := cut [] r in ((cur ++ l) :: ls, b)).
Proof.
  revert cur; induction l as [|c t IH]; intros cur H; cbn [app cut].
  - rewrite Ascii.eqb_refl, app_nil_r. reflexivity.
  - replace (Ascii.eqb c LF) with false.
    2:{ symmetry; apply Ascii.eqb_neq. intros ->. apply H; simpl; auto. }
    rewrite IH by (intros Hi; apply H; simpl; auto). now rewrite <- app_assoc.
Qed.

(** Reading back a text made of complete lines. *)
Lemma open_unlines ls : Forall is_line ls -> open_text (unlines ls) = mkStream ls true.
Proof.
  intros H. unfold open_text.
  assert (E : cut [] (unlines ls) = (ls, true)).
  { induction H as [|l r Hl Hr IH]; [reflexivity|].
    cbn [unlines]. rewrite cut_line by assumption. rewrite IH. reflexivity. }
  now rewrite E.
Qed.

Lemma no_space_line l : no_space l -> is_line l.
Proof.
  intros H Hi.
  unfold no_space in H. rewrite Forall_forall in H. apply H in Hi. discriminate.
Qed.
Lemma is_line_app a b : is_line a -> is_line b -> is_line (a ++ b).
Proof. unfold is_line. intros Ha Hb Hi. apply in_app_or in Hi. tauto. Qed.
Lemma is_line_cons c a : c <> LF -> is_line a -> is_line (c :: a).
Proof. unfold is_line. simpl. intros Hc Ha [H|H]; auto. Qed.
Lemma token_line l : token l -> is_line l.
Proof. intros [_ H]; now apply no_space_line. Qed.
Lemma is_line_join ts : Forall token ts -> is_line (join ts).
Proof.
  induction 1 as [|t r Ht Hr IH]; simpl; [intros []|].
  destruct r; [now apply token_line|]. apply is_line_app; [now apply token_line|].
  apply is_line_cons; [discriminate|assumption].
Qed.

(** Deciding the side conditions on literals. *)
Definition tokenb (l : bytes) : bool :=
  match l with [] => false | _ => forallb (fun c => negb (isspace c)) l end.
Lemma tokenb_ok l : tokenb l = true -> token l.
Proof.
  unfold tokenb, token. destruct l as [|c t]; [discriminate|]. intros H. split; [discriminate|].
  rewrite forallb_forall in H. apply Forall_forall. intros x Hx. apply H in Hx.
  now apply negb_true_iff in Hx.
Qed.
Definition lineb (l : bytes) : bool := forallb (fun c => negb (Ascii.eqb c LF)) l.
Lemma lineb_ok l : lineb l = true -> is_line l.
Proof.
  unfold lineb, is_line. intros H Hi. rewrite forallb_forall in H. apply H in Hi.
  rewrite Ascii.eqb_refl in Hi. discriminate.
Qed.
Lemma unlines_app a b : unlines (a ++ b) = unlines a ++ unlines b.
Proof.
  induction a as [|l r IH]; [reflexivity|]. cbn [app unlines]. rewrite IH. rewrite <- app_assoc. reflexivity.
Qed.
