(** * The spacing inside the lines does not matter (C151): the readers on lines with the same words. *)
From Coq Require Import ZArith List Lia Bool Ascii String.
From Verif Require Import Base Text TextFacts GocadModel MeshModel TsModel Spec GocadFacts StreamFacts CrlfFacts.
From Verif Require Import WellModel VoModel GrdeclModel SignsModel MlModel LsoModel.
Import ListNotations.
Local Open Scope string_scope.
Local Open Scope list_scope.
Local Open Scope Z_scope.

(** ** Specification *)
(** What stands before the first blank of a line: its first word, or nothing when the line is blank or indented. *)
Definition begins (w l : bytes) : Prop :=
  Forall (fun c => is_sep c = false) w /\ exists r, l = w ++ r /\ (r = [] \/ exists c r', r = c :: r' /\ is_sep c = true).
(** A row of numbers: its first word begins with a digit, a sign or a point. *)
Definition like_a_number (c : ascii) : bool := existsb (Ascii.eqb c) (lit "0123456789+-.").
Definition number_row (l : bytes) : Prop := exists c w ws, words l = (c :: w) :: ws /\ like_a_number c = true.
(** Two lines with the same words, and the same word (or no word) at the very beginning.  The words are separated by any
    number of spaces and tabs.  Lines that begin with GOCAD or with a lone # must be equal.  The rows of numbers may be
    indented. *)
Definition respaced (l l' : bytes) : Prop :=
  l' = l \/ (plain l /\ plain l' /\ words l' = words l /\
             ((exists w, begins w l /\ begins w l' /\ w <> lit "GOCAD" /\ w <> lit "#") \/ number_row l)).

(** ** Words and keywords *)
Lemma starts_app_sep c p : is_sep c = true -> Forall (fun c => is_sep c = false) p -> forall w t, starts_with (w ++ c :: t) p = starts_with w p.
Proof.
  intros Hc Hp. induction Hp as [|x p Hx _ IH]; intros w t; [now destruct w|].
  destruct w as [|y w]; cbn [app starts_with].
  - destruct (Ascii.eqb_spec x c) as [->|]; [congruence|reflexivity].
  - now rewrite IH.
Qed.
Lemma starts_begins w l p : begins w l -> Forall (fun c => is_sep c = false) p -> starts_with l p = starts_with w p.
Proof.
  intros (_ & r & -> & [->|(c & t & -> & Hc)]) Hp; [now rewrite app_nil_r|]. now apply starts_app_sep.
Qed.
Lemma starts_spaced k more : Forall (fun c => is_sep c = false) k -> forall w l, begins w l -> starts_with l (k ++ SP :: more) = true -> w = k.
Proof.
  intros Hk. induction Hk as [|x k Hx _ IH]; intros w l (Hw & r & -> & Hr) H; cbn [app] in H.
  - destruct w as [|y w]; [reflexivity|]. cbn [app starts_with] in H. apply andb_true_iff in H as [H _]. apply Ascii.eqb_eq in H as <-.
    inversion Hw. discriminate.
  - destruct w as [|y w].
    + exfalso. destruct Hr as [->|(c & t & -> & Hc)]; [discriminate|]. cbn [app starts_with] in H. apply andb_true_iff in H as [H _].
      apply Ascii.eqb_eq in H. congruence.
    + cbn [app starts_with] in H. apply andb_true_iff in H as [H1 H2]. apply Ascii.eqb_eq in H1. subst y. f_equal. inversion Hw; subst.
      apply (IH w (w ++ r)); [split; [assumption|eauto]|assumption].
Qed.
Lemma after_app_sep c p : is_sep c = true -> Forall (fun c => is_sep c = false) p -> p <> [] ->
  forall w t, after_first p (w ++ c :: t) = match after_first p w with Some x => Some (x ++ c :: t) | None => after_first p t end.
Proof.
  intros Hc Hp Hn. induction w as [|y w IH]; intros t.
  - cbn [app after_first]. pose proof (starts_app_sep c p Hc Hp [] t) as E. cbn [app] in E. rewrite E.
    destruct p; [congruence|]. reflexivity.
  - change ((y :: w) ++ c :: t) with (y :: w ++ c :: t). cbn [after_first].
    change (y :: w ++ c :: t) with ((y :: w) ++ c :: t). rewrite (starts_app_sep c p Hc Hp (y :: w) t).
    destruct (starts_with (y :: w) p) eqn:E; [|apply IH]. f_equal.
    assert (L : (List.length p <= List.length (y :: w))%nat).
    { clear - E. revert E. generalize (y :: w). induction p as [|a p IH]; intros l E; [cbn; lia|]. destruct l as [|b l]; [discriminate|].
      cbn [starts_with] in E. apply andb_true_iff in E as [_ E]. apply IH in E. cbn. lia. }
    rewrite skipn_app. replace (List.length p - List.length (y :: w))%nat with O by lia. reflexivity.
Qed.
Fixpoint words_after (p : bytes) (ws : list bytes) : option (list bytes) :=
  match ws with
  | [] => None
  | w :: r => match after_first p w with Some x => Some (flush x ++ r) | None => words_after p r end
  end.
Lemma after_first_suffix p : forall l x, after_first p l = Some x -> exists a, l = a ++ x.
Proof.
  induction l as [|c l IH]; intros x H; cbn [after_first] in H.
  - destruct (starts_with [] p); [|discriminate]. assert (x = skipn (List.length p) []) as -> by congruence. exists (firstn (List.length p) []). now rewrite firstn_skipn.
  - destruct (starts_with (c :: l) p).
    + assert (x = skipn (List.length p) (c :: l)) as -> by congruence. exists (firstn (List.length p) (c :: l)). now rewrite firstn_skipn.
    + destruct (IH x H) as [a ->]. now exists (c :: a).
Qed.
Lemma split_run_app_sep w : Forall (fun c => is_sep c = false) w -> forall cur t, split_run cur (w ++ t) = split_run (cur ++ w) t.
Proof.
  induction 1 as [|x w Hx _ IH]; intros cur t; [now rewrite app_nil_r|]. cbn [app split_run]. rewrite Hx, IH, <- app_assoc. reflexivity.
Qed.
Lemma after_words p : Forall (fun c => is_sep c = false) p -> p <> [] -> forall l cur, Forall (fun c => is_sep c = false) cur ->
  option_map words (after_first p (cur ++ l)) = words_after p (split_run cur l).
Proof.
  intros Hp Hn. induction l as [|c l IH]; intros cur Hc.
  - rewrite app_nil_r. cbn [split_run]. destruct cur as [|y cur].
    + destruct p; [congruence|reflexivity].
    + cbn [flush words_after]. destruct (after_first p (y :: cur)) as [x|] eqn:E; [|reflexivity]. cbn [option_map]. rewrite app_nil_r.
      apply after_first_suffix in E as [a E]. rewrite E in Hc. apply Forall_app in Hc as [_ Hx]. unfold words.
      rewrite <- (app_nil_r x) at 1. now rewrite split_run_app_sep.
  - cbn [split_run]. destruct (is_sep c) eqn:Sc.
    + rewrite after_app_sep by assumption. destruct cur as [|y cur].
      * cbn [flush app]. replace (after_first p []) with (@None bytes) by (destruct p; [congruence|reflexivity]).
        now rewrite <- (IH [] (Forall_nil _)).
      * cbn [flush app words_after]. destruct (after_first p (y :: cur)) as [x|] eqn:E.
        -- cbn [option_map]. apply after_first_suffix in E as [a E]. rewrite E in Hc. apply Forall_app in Hc as [_ Hx]. unfold words.
           rewrite split_run_app_sep by assumption. cbn [app split_run]. now rewrite Sc.
        -- now rewrite <- (IH [] (Forall_nil _)).
    + replace (cur ++ c :: l) with ((cur ++ [c]) ++ l) by now rewrite <- app_assoc. apply IH. apply Forall_app. split; [assumption|]. now constructor.
Qed.

(** A keyword without blank, or with GOCAD or # as first word. *)
Definition wordy (kw : bytes) : bool := match kw with c :: _ => negb (like_a_number c) && negb (is_sep c) | [] => false end.
Definition okkw (kw : bytes) : Prop := wordy kw = true /\ (
  Forall (fun c => is_sep c = false) kw \/ exists k more, kw = k ++ SP :: more /\ Forall (fun c => is_sep c = false) k /\ (k = lit "GOCAD" \/ k = lit "#")).
Lemma row_starts kw l : wordy kw = true -> number_row l -> starts_with l kw = false.
Proof.
  intros Hk (c & w & ws & E & Hc). destruct kw as [|k kw]; [discriminate|]. cbn [wordy] in Hk. apply andb_true_iff in Hk as [H1 H2].
  apply negb_true_iff in H1, H2. destruct l as [|d l]; [discriminate|]. cbn [starts_with].
  destruct (Ascii.eqb_spec k d) as [->|]; [|reflexivity]. exfalso. unfold words in E. cbn [split_run] in E. rewrite H2 in E. cbn [app] in E.
  assert (X : forall l cur, cur <> [] -> exists t r, split_run cur l = (cur ++ t) :: r).
  { clear. induction l as [|x l IH]; intros cur N; cbn [split_run].
    - destruct cur; [congruence|]. exists [], []. now rewrite app_nil_r.
    - destruct (is_sep x).
      + destruct cur; [congruence|]. exists [], (split_run [] l). now rewrite app_nil_r.
      + destruct (IH (cur ++ [x])) as (t & r & ->); [now destruct cur|]. exists ([x] ++ t), r. now rewrite <- app_assoc. }
  destruct (X l [d]) as (t & r & E2); [discriminate|]. rewrite E2 in E. cbn [app] in E. assert (d = c) by congruence. congruence.
Qed.
Definition unblank (kw : bytes) : Prop := Forall (fun c => is_sep c = false) kw.
Definition unblankb (kw : bytes) : bool := forallb (fun c => negb (is_sep c)) kw.
Lemma unblankb_ok kw : unblankb kw = true -> unblank kw.
Proof. intros H. apply Forall_forall. intros c Hc. apply (proj1 (forallb_forall _ _) H) in Hc. now apply negb_true_iff in Hc. Qed.
Ltac unb := apply unblankb_ok; reflexivity.
Ltac nocr := split; [reflexivity|]; solve [ left; unb
  | right; exists (lit "GOCAD"); eexists; split; [reflexivity|split; [unb|now left]]
  | right; exists (lit "#"); eexists; split; [reflexivity|split; [unb|now right]] ].

Lemma Forall2_len {P : bytes -> bytes -> Prop} ls ls' : Forall2 P ls ls' -> List.length ls = List.length ls'.
Proof. induction 1; cbn; congruence. Qed.
Lemma bind_inv0 {A B} (x : res A) (f : A -> res B) y : bind x f = Ok y -> exists a, x = Ok a /\ f a = Ok y.
Proof. destruct x; try discriminate. cbn. eauto. Qed.
Section Spacing.
(** Lines that must be the same. *)
Context {fixed : bytes -> bool}.
Definition Rl (l l' : bytes) : Prop := respaced l l' /\ (fixed l = true -> l' = l).
Definition Rs (s s' : istream) : Prop := Forall2 Rl (pending s) (pending s') /\ nl s = nl s'.
Definition Rv {A} (x y : A * list bytes) : Prop := fst x = fst y /\ Forall2 Rl (snd x) (snd y).
Definition Rvs {A} (x y : A * istream) : Prop := fst x = fst y /\ Rs (snd x) (snd y).
Lemma Rl_refl l : Rl l l.
Proof. split; [now left|reflexivity]. Qed.
Lemma Rl_split l l' : Rl l l' -> string_split l' = string_split l.
Proof. intros [[-> | (P & P' & W & _)] _]; [reflexivity|]. now rewrite !string_split_plain. Qed.
Lemma Rl_quotes l l' : Rl l l' -> split_quotes l' = split_quotes l.
Proof. intros H. unfold split_quotes. now rewrite (Rl_split l l'). Qed.
Lemma Rl_starts l l' kw : okkw kw -> Rl l l' -> starts_with l' kw = starts_with l kw.
Proof.
  intros [Hf Hk] [[-> | (_ & _ & Ew & [(w & B & B' & N1 & N2)|Hr])] _]; [reflexivity| |].
  2:{ rewrite !row_starts; auto. unfold number_row in *. now rewrite Ew. }
  destruct Hk as [Hk|(k & more & -> & Hk & Hw)].
  - now rewrite (starts_begins w l' kw B' Hk), (starts_begins w l kw B Hk).
  - destruct (starts_with l' _) eqn:E'; [apply (starts_spaced k more Hk w l' B') in E'; destruct Hw; congruence|].
    destruct (starts_with l _) eqn:E; [apply (starts_spaced k more Hk w l B) in E; destruct Hw; congruence|reflexivity].
Qed.
Lemma Rl_after_first p l l' : unblank p -> p <> [] -> Rl l l' ->
  match after_first p l, after_first p l' with
  | Some x, Some y => string_split y = string_split x
  | None, None => True
  | _, _ => False
  end.
Proof.
  intros Hp Hn [[-> | (P & P' & W & _)] _]; [now destruct (after_first p l)|].
  pose proof (after_words p Hp Hn l [] (Forall_nil _)) as A. pose proof (after_words p Hp Hn l' [] (Forall_nil _)) as A'.
  cbn [app] in A, A'. fold (words l) in A. fold (words l') in A'. rewrite W, <- A in A'.
  destruct (after_first p l) as [x|] eqn:E, (after_first p l') as [y|] eqn:E'; try discriminate A'; [|exact I].
  apply after_first_suffix in E as [a ->], E' as [a' ->]. cbn [option_map] in A'.
  unfold plain in P, P'. apply Forall_app in P as [_ P], P' as [_ P']. rewrite !string_split_plain by assumption. congruence.
Qed.
Lemma Rl_contains l l' p : unblank p -> p <> [] -> Rl l l' -> contains l' p = contains l p.
Proof.
  intros H1 H2 H. unfold contains. pose proof (Rl_after_first p l l' H1 H2 H) as E.
  destruct (after_first p l), (after_first p l'); try contradiction; reflexivity.
Qed.
Lemma R_scan p p' ls ls' : (forall l l', Rl l l' -> p' l' = p l) -> Forall2 Rl ls ls' ->
  match scan p ls, scan p' ls' with
  | Some (l, r), Some (l', r') => Rl l l' /\ Forall2 Rl r r'
  | None, None => True
  | _, _ => False
  end.
Proof.
  intros Hp. induction 1 as [|l l' r r' H1 H2 IH]; simpl; auto.
  rewrite (Hp l l') by assumption. destruct (p l); auto.
Qed.
Lemma R_goto_if kw s s' : okkw kw -> Rs s s' ->
  match goto_if kw s, goto_if kw s' with
  | (Some l, t), (Some l', t') => Rl l l' /\ Rs t t'
  | (None, t), (None, t') => Rs t t'
  | _, _ => False
  end.
Proof.
  intros Hk H. unfold goto_if.
  pose proof (R_scan (fun l => starts_with l kw) (fun l => starts_with l kw) (pending s) (pending s')) as E.
  destruct H as [H Hn]. specialize (E ltac:(intros; now apply Rl_starts) H).
  destruct (scan _ (pending s)) as [[l r]|], (scan _ (pending s')) as [[l' r']|]; try contradiction; [|now split].
  split; [apply E|]. split; [apply E|exact Hn].
Qed.
Lemma R_goto_keyword kw s s' : okkw kw -> Rs s s' ->
  res_rel (fun x y => Rl (fst x) (fst y) /\ Rs (snd x) (snd y)) (goto_keyword kw s) (goto_keyword kw s').
Proof.
  intros Hk H. unfold goto_keyword. pose proof (R_goto_if kw s s' Hk H) as E.
  destruct (goto_if kw s) as [[l|] t], (goto_if kw s') as [[l'|] t']; try contradiction; simpl; auto.
Qed.
Lemma R_goto_keywords kws s s' : Forall (okkw) kws -> Rs s s' ->
  res_rel (fun x y => Rl (fst x) (fst y) /\ Rs (snd x) (snd y)) (goto_keywords kws s) (goto_keywords kws s').
Proof.
  intros Hk H. unfold goto_keywords.
  pose proof (R_scan (fun l => existsb (starts_with l) kws) (fun l => existsb (starts_with l) kws)
                (pending s) (pending s')) as E.
  assert (X : forall l l', Rl l l' -> existsb (starts_with l') kws = existsb (starts_with l) kws).
  { intros l l' HR. clear E. induction Hk as [|k r H1 H2 IH]; [reflexivity|]. cbn [existsb].
    rewrite (Rl_starts l l') by assumption. now rewrite IH. }
  destruct H as [H Hn]. specialize (E X H).
  destruct (scan _ (pending s)) as [[l r]|], (scan _ (pending s')) as [[l' r']|]; try contradiction; [|reflexivity].
  split; [apply E|]. split; [apply E|exact Hn].
Qed.
Lemma R_next_if kw s s' : okkw kw -> Rs s s' ->
  match next_if kw s, next_if kw s' with
  | (Some l, t), (Some l', t') => Rl l l' /\ Rs t t'
  | (None, t), (None, t') => Rs t t'
  | _, _ => False
  end.
Proof.
  intros Hk [H Hn]. unfold next_if, Rs in *. rewrite <- Hn. inversion H as [E1 E2|l l' r r' H1 H2 E1 E2].
  - split; constructor.
  - rewrite (Rl_starts l l') by assumption. destruct (starts_with l kw); cbn [pending nl]; auto.
Qed.
Lemma R_check_keyword kw s s' : okkw kw -> Rs s s' ->
  res_rel Rs (check_keyword kw s) (check_keyword kw s').
Proof.
  intros Hk [H Hn]. unfold check_keyword, Rs in *. rewrite <- Hn. inversion H as [|l l' r r' H1 H2]; simpl; auto.
  rewrite (Rl_starts l l') by assumption. destruct (starts_with l kw); simpl; auto.
Qed.

Lemma R_header_loop n ls ls' : Forall2 Rl ls ls' -> res_rel Rv (header_loop n ls) (header_loop n ls').
Proof.
  intros H. revert n. induction H as [|l l' r r' H1 H2 IH]; intros n; [reflexivity|].
  cbn [header_loop]. rewrite (Rl_starts l l') by (nocr || assumption).
  destruct (starts_with l _); [split; auto|].
  pose proof (Rl_after_first (lit "name:") l l' ltac:(unb) ltac:(discriminate) H1) as E.
  destruct (after_first _ l), (after_first _ l'); try contradiction; auto.
  rewrite E. apply IH.
Qed.
Lemma R_read_header s s' : Rs s s' -> res_rel Rvs (read_header s) (read_header s').
Proof.
  intros H. unfold read_header. eapply res_rel_bind; [apply R_check_keyword; [nocr|exact H]|].
  intros t t' [Ht Hn]. eapply res_rel_bind; [apply R_header_loop; exact Ht|].
  intros [a r] [a' r'] [E1 E2]. split; [assumption|split; assumption].
Qed.
Lemma R_crs_loop c ls ls' : Forall2 Rl ls ls' -> res_rel Rv (crs_loop c ls) (crs_loop c ls').
Proof.
  intros H. revert c. induction H as [|l l' r r' H1 H2 IH]; intros c; [reflexivity|].
  cbn [crs_loop]. rewrite (Rl_starts l l') by (nocr || assumption).
  destruct (starts_with l _); [split; auto|].
  unfold crs_line. rewrite (Rl_quotes l l') by assumption.
  eapply res_rel_bind; [apply res_rel_refl with (P := eq); reflexivity|]. intros c1 c2 <-. apply IH.
Qed.
Lemma R_read_CRS s s' : Rs s s' -> res_rel Rvs (read_CRS s) (read_CRS s').
Proof.
  intros H. unfold read_CRS. 
  pose proof (R_next_if (lit "GOCAD_ORIGINAL_COORDINATE_SYSTEM") s s' ltac:(nocr) H) as E.
  destruct (next_if _ s) as [[l|] t], (next_if _ s') as [[l'|] t']; try contradiction.
  - destruct E as [_ [E Hn]]. eapply res_rel_bind; [apply R_crs_loop; exact E|].
    intros [a r] [a' r'] [E1 E2]. split; [assumption|split; assumption].
  - split; auto.
Qed.
Lemma R_kw_line {A} (f : bytes -> res A) kw s s' : okkw kw ->
  (forall l l', Rl l l' -> f l' = f l) -> Rs s s' ->
  res_rel Rvs (do '(line, s1) <- goto_keyword kw s; do d <- f line; Ok (d, s1))
              (do '(line, s1) <- goto_keyword kw s'; do d <- f line; Ok (d, s1)).
Proof.
  intros Hk Hf H. eapply res_rel_bind; [apply R_goto_keyword; eassumption|].
  intros [l t] [l' t'] [E1 E2]. cbn [fst snd] in *. rewrite (Hf l l') by assumption.
  eapply res_rel_bind; [apply res_rel_refl with (P := eq); reflexivity|]. intros c1 c2 <-.
  split; auto.
Qed.
Lemma R_kw_one_string kw n s s' : okkw kw -> Rs s s' ->
  res_rel Rvs (kw_one_string kw n s) (kw_one_string kw n s').
Proof.
  intros Hk H. unfold kw_one_string.
  eapply res_rel_bind; [apply R_goto_keyword; eassumption|].
  intros [l t] [l' t'] [E1 E2]. cbn [fst snd] in *. rewrite (Rl_quotes l l') by assumption.
  eapply res_rel_bind; [apply res_rel_refl with (P := eq); reflexivity|]. intros c1 c2 <-.
  eapply res_rel_bind; [apply res_rel_refl with (P := eq); reflexivity|]. intros d1 d2 <-.
  split; auto.
Qed.
Lemma R_kw_two_strings kw n s s' : okkw kw -> Rs s s' ->
  res_rel Rvs (kw_two_strings kw n s) (kw_two_strings kw n s').
Proof.
  intros Hk H. unfold kw_two_strings. apply R_kw_line; auto.
  intros l l' HR. now rewrite (Rl_split l l').
Qed.
Lemma R_kw_one_double F kw n s s' : okkw kw -> Rs s s' ->
  res_rel Rvs (kw_one_double F kw n s) (kw_one_double F kw n s').
Proof.
  intros Hk H. unfold kw_one_double. apply R_kw_line; auto.
  intros l l' HR. now rewrite (Rl_split l l').
Qed.
Lemma R_kw_one_index kw n s s' : okkw kw -> Rs s s' ->
  res_rel Rvs (kw_one_index kw n s) (kw_one_index kw n s').
Proof.
  intros Hk H. unfold kw_one_index. apply R_kw_line; auto.
  intros l l' HR. now rewrite (Rl_split l l').
Qed.
Ltac step H := eapply res_rel_bind; [apply H; [nocr|eassumption]|];
  let a := fresh "v" in let t := fresh "t" in let a' := fresh "w" in let t' := fresh "t" in
  let E := fresh "E" in
  intros [a t] [a' t'] [E ?]; cbn [fst snd] in *; subst a'.
Ltac stepp H := eapply res_rel_bind; [apply H; [match goal with K : forall k, _ |- _ => apply K; [unb|reflexivity] end|eassumption]|];
  let a := fresh "v" in let t := fresh "t" in let a' := fresh "w" in let t' := fresh "t" in
  let E := fresh "E" in
  intros [a t] [a' t'] [E ?]; cbn [fst snd] in *; subst a'.
Lemma R_prop_header F prefix s s' : unblank prefix -> prefix = [] \/ wordy prefix = true -> Rs s s' ->
  res_rel Rvs (read_prop_header F prefix s) (read_prop_header F prefix s').
Proof.
  intros Hp Hw H. unfold read_prop_header.
  assert (K : forall k, unblank k -> wordy k = true -> okkw (prefix ++ k)).
  { intros k Hk Wk. split; [destruct Hw as [-> |Hw]; [exact Wk|now destruct prefix]|]. left. apply Forall_app; auto. }
  pose proof (R_next_if (prefix ++ lit "PROPERTIES") s s' ltac:(apply K; [unb|reflexivity]) H) as E.
  destruct (next_if _ s) as [[l|] t], (next_if _ s') as [[l'|] t']; try contradiction.
  2:{ split; auto. }
  destruct E as [E1 E2]. rewrite (Rl_quotes l l') by assumption.
  eapply res_rel_bind; [apply res_rel_refl with (P := eq); reflexivity|]. intros sl ? <-.
  cbn zeta. destruct (Nat.eqb _ 0); [split; auto|].
  eapply res_rel_bind; [apply res_rel_refl with (P := eq); reflexivity|]. intros names ? <-.
  stepp R_kw_two_strings. stepp R_kw_one_double. stepp R_kw_one_string. stepp R_kw_one_string.
  stepp R_kw_two_strings. stepp R_kw_one_index. stepp R_kw_one_string.
  split; auto.
Qed.
Lemma R_read_prop_header F s s' : Rs s s' ->
  res_rel Rvs (read_prop_header F [] s) (read_prop_header F [] s').
Proof. apply R_prop_header; [constructor|now left]. Qed.
Lemma R_tfaces_loop F ts ls ls' : Forall2 Rl ls ls' ->
  res_rel Rv (tfaces_loop F ts ls) (tfaces_loop F ts ls').
Proof.
  intros H. revert ts. induction H as [|l l' r r' H1 H2 IH]; intros ts; [reflexivity|].
  cbn [tfaces_loop]. unfold tface_line. rewrite (Rl_split l l') by assumption.
  eapply res_rel_bind; [apply res_rel_refl with (P := eq); reflexivity|]. intros [c stop] ? <-.
  destruct stop; [split; auto|apply IH].
Qed.
Lemma R_ilines_loop F ts ls ls' : Forall2 Rl ls ls' ->
  res_rel Rv (ilines_loop F ts ls) (ilines_loop F ts ls').
Proof.
  intros H. revert ts. induction H as [|l l' r r' H1 H2 IH]; intros ts; [split; auto; constructor|].
  cbn [ilines_loop]. unfold iline_line. rewrite (Rl_split l l') by assumption.
  eapply res_rel_bind; [apply res_rel_refl with (P := eq); reflexivity|]. intros [c stop] ? <-.
  destruct stop; [split; auto|apply IH].
Qed.
Lemma R_vset_loop F ts ls ls' : Forall2 Rl ls ls' ->
  res_rel Rv (vset_loop F ts ls) (vset_loop F ts ls').
Proof.
  intros H. revert ts. induction H as [|l l' r r' H1 H2 IH]; intros ts; [reflexivity|].
  cbn [vset_loop]. unfold vset_line. rewrite (Rl_split l l') by assumption.
  eapply res_rel_bind; [apply res_rel_refl with (P := eq); reflexivity|]. intros [c stop] ? <-.
  destruct stop; [split; auto|apply IH].
Qed.
Ltac step0 H := eapply res_rel_bind; [apply H; eassumption|];
  let a := fresh "v" in let t := fresh "t" in let a' := fresh "w" in let t' := fresh "t" in
  let E := fresh "E" in
  intros [a t] [a' t'] [E ?]; cbn [fst snd] in *; subst a'.
Lemma R_read_tsurf F s s' : Rs s s' -> res_rel Rvs (read_tsurf F s) (read_tsurf F s').
Proof.
  intros H. unfold read_tsurf.
  pose proof (R_goto_if (lit "GOCAD TSurf") s s' ltac:(nocr) H) as E.
  destruct (goto_if _ s) as [[l|] t], (goto_if _ s') as [[l'|] t']; try contradiction.
  2:{ split; auto. }
  destruct E as [_ E].
  step0 R_read_header. step0 R_read_CRS. step0 R_read_prop_header.
  unfold read_tfaces. rewrite !bind_assoc.
  eapply res_rel_bind; [apply R_goto_keyword; [nocr|eassumption]|].
  intros [x1 x2] [y1 y2] [_ [E2 En]]. cbn [fst snd] in *. rewrite !bind_assoc.
  eapply res_rel_bind; [apply R_tfaces_loop; exact E2|].
  intros [a r] [a' r'] [Ea Er]. cbn [fst snd] in *. subst a'. split; [reflexivity|split; assumption].
Qed.
Lemma R_read_ecurve F s s' : Rs s s' -> res_rel Rvs (read_ecurve F s) (read_ecurve F s').
Proof.
  intros H. unfold read_ecurve.
  pose proof (R_goto_if (lit "GOCAD PLine") s s' ltac:(nocr) H) as E.
  destruct (goto_if _ s) as [[l|] t], (goto_if _ s') as [[l'|] t']; try contradiction.
  2:{ split; auto. }
  destruct E as [_ E].
  step0 R_read_header. step0 R_read_CRS.
  unfold read_ilines. rewrite !bind_assoc.
  eapply res_rel_bind; [apply R_goto_keyword; [nocr|eassumption]|].
  intros [x1 x2] [y1 y2] [_ [E2 En]]. cbn [fst snd] in *. rewrite !bind_assoc.
  eapply res_rel_bind; [apply R_ilines_loop; exact E2|].
  intros [a r] [a' r'] [Ea Er]. cbn [fst snd] in *. subst a'. split; [reflexivity|split; assumption].
Qed.
Lemma R_read_vs_points F s s' : Rs s s' -> res_rel Rvs (read_vs_points F s) (read_vs_points F s').
Proof.
  intros H. unfold read_vs_points.
  pose proof (R_goto_if (lit "GOCAD VSet") s s' ltac:(nocr) H) as E.
  destruct (goto_if _ s) as [[l|] t], (goto_if _ s') as [[l'|] t']; try contradiction.
  2:{ split; auto. }
  destruct E as [_ E].
  step0 R_read_header. step0 R_read_CRS. step0 R_read_prop_header.
  unfold read_VSet_vertices. rewrite !bind_assoc.
  eapply res_rel_bind; [apply R_goto_keywords; [|eassumption]|].
  { repeat (apply Forall_cons; [nocr|]). constructor. }
  intros [x1 x2] [y1 y2] [E1 [E2 En]]. cbn [fst snd] in *. rewrite !bind_assoc.
  eapply res_rel_bind; [apply R_vset_loop; constructor; [exact E1|exact E2]|].
  intros [a r] [a' r'] [Ea Er]. cbn [fst snd] in *. subst a'. split; [reflexivity|split; assumption].
Qed.
Lemma R_read_ts_loop F n (m : mesh F tri) s s' : Rs s s' -> read_ts_loop n m s = read_ts_loop n m s'.
Proof.
  revert m s s'. induction n as [|n IH]; intros m s s' H; [reflexivity|]. cbn [read_ts_loop].
  apply res_rel_eq. eapply res_rel_bind; [apply R_read_tsurf; exact H|].
  intros [o t] [o' t'] [E1 E2]. cbn [fst snd] in *. subst o'. apply res_rel_eq.
  destruct o; [|reflexivity]. apply bind_ext. intros a _. now apply IH.
Qed.
Lemma R_read_vs_loop F n (m : mesh F unit) s s' : Rs s s' -> read_vs_loop n m s = read_vs_loop n m s'.
Proof.
  revert m s s'. induction n as [|n IH]; intros m s s' H; [reflexivity|]. cbn [read_vs_loop].
  apply res_rel_eq. eapply res_rel_bind; [apply R_read_vs_points; exact H|].
  intros [o t] [o' t'] [E1 E2]. cbn [fst snd] in *. subst o'. apply res_rel_eq.
  destruct o; [|reflexivity]. apply bind_ext. intros a _. now apply IH.
Qed.
Lemma R_read_pl_loop F n (m : mesh F edge) s s' : Rs s s' -> read_pl_loop n m s = read_pl_loop n m s'.
Proof.
  revert m s s'. induction n as [|n IH]; intros m s s' H; [reflexivity|]. cbn [read_pl_loop].
  apply res_rel_eq. eapply res_rel_bind; [apply R_read_ecurve; exact H|].
  intros [o t] [o' t'] [E1 E2]. cbn [fst snd] in *. subst o'. apply res_rel_eq.
  destruct o; [|reflexivity]. apply bind_ext. intros a _. now apply IH.
Qed.


Lemma R_getline line line' s s' : Rl line line' -> Rs s s' ->
  let '(g, l, t) := getline line s in let '(g', l', t') := getline line' s' in
  g = g' /\ Rl l l' /\ Rs t t'.
Proof.
  intros Hl [H Hn]. unfold getline. rewrite <- Hn. inversion H as [|l l' r r' H1 H2]; cbn.
  - split; [reflexivity|]. split; [destruct (nl s); [apply Rl_refl|assumption]|]. split; [constructor|reflexivity].
  - split; [reflexivity|]. split; [assumption|]. split; [assumption|reflexivity].
Qed.
Lemma Rs_length s s' : Rs s s' -> List.length (pending s) = List.length (pending s').
Proof. intros [H _]. induction H; simpl; congruence. Qed.
Ltac same := eapply res_rel_bind; [apply res_rel_refl with (P := eq); reflexivity|].
Lemma loadable_sp kw text text' : okkw kw -> Rs (open_text text) (open_text text') -> loadable kw text' = loadable kw text.
Proof.
  intros H HR. unfold loadable. pose proof (R_goto_if kw _ _ H HR) as E.
  destruct (goto_if kw (open_text text)) as [[]?], (goto_if kw (open_text text')) as [[]?]; try contradiction; reflexivity.
Qed.
Context (F : Num).

(** ** Wells *)
Lemma R_read_coord l l' n : Rl l l' -> read_coord F l' n = read_coord F l n.
Proof. intros H. unfold read_coord. now rewrite (Rl_split l l'). Qed.
Lemma R_paths_loop crs ref ls ls' m : Forall2 Rl ls ls' -> paths_loop F crs ref ls' m = paths_loop F crs ref ls m.
Proof.
  intros H. revert m. induction H as [|l l' r r' H1 H2 IH]; intros m; [reflexivity|]. cbn [paths_loop].
  rewrite (Rl_starts l l') by (nocr || assumption). destruct (starts_with l _); [|reflexivity].
  rewrite (R_read_coord l l') by assumption. apply bind_ext. intros [[t0 t1] t2] _. destruct ref as [[rx ry] rz].
  apply bind_ext. intros m2 _. apply IH.
Qed.
Lemma sp_wl text text' (HR : Rs (open_text text) (open_text text')) : read_wl F text' = read_wl F text.
Proof.
  unfold read_wl. pose proof (R_goto_if (lit "GOCAD Well") _ _ ltac:(nocr) HR) as E. symmetry.
  destruct (goto_if _ (open_text text)) as [[]s0], (goto_if _ (open_text text')) as [[]s0']; try contradiction; [|reflexivity].
  destruct E as [_ E]. apply res_rel_eq.
  eapply res_rel_bind; [apply R_read_header; exact E|]. intros [n s] [n' s'] [En Es]. cbn [fst snd] in En, Es. subst n'.
  eapply res_rel_bind; [apply R_read_CRS; exact Es|]. intros [c s1] [c' s1'] [Ec Es1]. cbn [fst snd] in Ec, Es1. subst c'.
  unfold read_ref. rewrite !bind_assoc.
  eapply res_rel_bind; [apply R_goto_keyword; [nocr|exact Es1]|]. intros [l s2] [l' s2'] [El Es2]. cbn [fst snd] in El, Es2.
  rewrite (R_read_coord l l') by assumption. rewrite !bind_assoc. same. intros [[x y] z] ? <-. cbn [bind].
  eapply res_rel_bind; [apply R_goto_keyword; [nocr|exact Es2]|]. intros [l3 s3] [l3' s3'] [El3 [Es3 _]]. cbn [fst snd] in Es3.
  apply res_rel_eq. symmetry. now apply R_paths_loop.
Qed.
Lemma R_foldM {B} (f : B -> bytes -> res B) ls ls' : (forall b l l', Rl l l' -> f b l' = f b l) -> Forall2 Rl ls ls' ->
  forall b, foldM f ls' b = foldM f ls b.
Proof.
  intros Hf. induction 1 as [|l l' r r' H1 H2 IH]; intros b; [reflexivity|]. cbn [foldM]. rewrite (Hf b l l') by assumption.
  apply bind_ext. intros b' _. apply IH.
Qed.
Lemma sp_well name text text' (HR : Rs (open_text text) (open_text text')) : read_well F name text' = read_well F name text.
Proof.
  unfold read_well, read_rows. destruct HR as [H _].
  rewrite (R_foldM _ (pending (open_text text)) (pending (open_text text'))); [reflexivity| |exact H].
  intros b l l' HL. now rewrite (R_read_coord l l').
Qed.
Lemma R_dev_header_loop fp h ls ls' : Forall2 Rl ls ls' -> res_rel Rv (dev_header_loop fp h ls) (dev_header_loop fp h ls').
Proof.
  intros H. revert fp h. induction H as [|l l' r r' H1 H2 IH]; intros fp h; [reflexivity|]. cbn [dev_header_loop].
  rewrite !(Rl_starts l l') by (nocr || assumption). destruct (starts_with l "#===").
  - destruct fp; [apply IH|]. split; auto.
  - destruct (starts_with l "# WELL NAME:").
    + rewrite (Rl_split l l') by assumption. same. intros n ? <-. apply IH.
    + destruct fp; [apply IH|]. unfold dev_columns. rewrite (Rl_split l l') by assumption. same. intros h' ? <-. apply IH.
Qed.
Lemma sp_dev text text' (HR : Rs (open_text text) (open_text text')) : read_dev F text' = read_dev F text.
Proof.
  symmetry. unfold read_dev. apply res_rel_eq.
  eapply res_rel_bind; [apply R_check_keyword; [nocr|exact HR]|]. intros s s' [Es _].
  eapply res_rel_bind; [apply R_dev_header_loop; exact Es|]. intros [h r] [h' r'] [Eh Er]. cbn [fst snd] in Eh, Er. subst h'.
  same. intros m ? <-. apply res_rel_eq. rewrite (R_foldM _ r r'); [reflexivity| |exact Er].
  intros b l l' HL. unfold dev_row. now rewrite (Rl_split l l').
Qed.

(** ** Structural models *)
Lemma R_read_ids parse ls ls' : Forall2 Rl ls ls' -> res_rel Rv (read_ids parse ls) (read_ids parse ls').
Proof.
  induction 1 as [|l l' r r' H1 H2 IH]; [exact I|]. cbn [read_ids]. rewrite (Rl_split l l') by assumption.
  same. intros [vs stop] ? <-. destruct stop; [split; auto|].
  eapply res_rel_bind; [exact IH|]. intros [a b] [a' b'] [E1 E2]. cbn [fst snd] in *. subst a'. split; auto.
Qed.
Lemma R_component_line st l l' r r' : Rl l l' -> Forall2 Rl r r' -> res_rel Rv (component_line st l r) (component_line st l' r').
Proof.
  intros H1 H2. unfold component_line. rewrite (Rl_split l l') by assumption. same. intros kw ? <-.
  destruct st as [ts ss un bs us fs]. cbn zeta.
  destruct (beq kw "TSURF"); [split; auto|]. destruct (beq kw "TFACE").
  { same. intros f ? <-. destruct (add_tface _ _ _ _); [split; auto|reflexivity]. }
  destruct (beq kw "REGION").
  { same. intros f ? <-. destruct (beq _ "Universe").
    - eapply res_rel_bind; [apply R_read_ids; exact H2|]. intros [a b] [a' b'] [E1 E2]. cbn [fst snd] in *. subst a'.
      same. intros ns ? <-. split; auto.
    - eapply res_rel_bind; [apply R_read_ids; exact H2|]. intros [a b] [a' b'] [E1 E2]. cbn [fst snd] in *. subst a'.
      same. intros ns ? <-. same. intros [bd it] ? <-. split; auto. }
  destruct (beq kw "LAYER").
  { eapply res_rel_bind; [apply R_read_ids; exact H2|]. intros [a b] [a' b'] [E1 E2]. cbn [fst snd] in *. subst a'. split; auto. }
  destruct (beq kw "FAULT_BLOCK").
  { eapply res_rel_bind; [apply R_read_ids; exact H2|]. intros [a b] [a' b'] [E1 E2]. cbn [fst snd] in *. subst a'. split; auto. }
  split; auto.
Qed.
Lemma R_components_loop fuel st ls ls' : Forall2 Rl ls ls' -> res_rel Rv (components_loop fuel st ls) (components_loop fuel st ls').
Proof.
  revert st ls ls'. induction fuel as [|f IH]; intros st ls ls' H; [exact I|]. cbn [components_loop].
  inversion H as [|l l' r r' H1 H2]; subst; [reflexivity|].
  rewrite (Rl_starts l l') by (nocr || assumption). destruct (starts_with l _); [split; auto|].
  eapply res_rel_bind; [apply R_component_line; eassumption|]. intros [a b] [a' b'] [E1 E2]. cbn [fst snd] in *. subst a'. now apply IH.
Qed.
Lemma R_build_all ts s s' : Rs s s' -> build_all (F := F) ts s = build_all ts s'.
Proof.
  revert s s'. induction ts as [|t r IH]; intros s s' H; [reflexivity|]. cbn [build_all]. apply res_rel_eq.
  eapply res_rel_bind; [apply R_read_tsurf; exact H|]. intros [o t0] [o' t0'] [E1 E2]. cbn [fst snd] in *. subst o'. apply res_rel_eq.
  destruct o; [|reflexivity]. apply bind_ext. intros a _. now rewrite (IH t0 t0').
Qed.
Lemma sp_ml text text' (HR : Rs (open_text text) (open_text text')) : read_ml F text' = read_ml F text.
Proof.
  unfold read_ml. pose proof (R_goto_if (lit "GOCAD Model3d") _ _ ltac:(nocr) HR) as E. symmetry.
  destruct (goto_if _ (open_text text)) as [[]s0], (goto_if _ (open_text text')) as [[]s0']; try contradiction; [|reflexivity].
  destruct E as [_ E]. apply res_rel_eq.
  eapply res_rel_bind; [apply R_read_header; exact E|]. intros [n s] [n' s'] [En Es]. cbn [fst snd] in En, Es. subst n'.
  eapply res_rel_bind; [apply R_read_CRS; exact Es|]. intros [c s1] [c' s1'] [Ec Es1]. cbn [fst snd] in Ec, Es1. subst c'.
  unfold read_components. rewrite <- (Rs_length _ _ Es1). destruct Es1 as [Es1 En1].
  eapply res_rel_bind; [apply R_components_loop; exact Es1|]. intros [st r] [st' r'] [E1 E2]. cbn [fst snd] in *. subst st'.
  same. intros cs ? <-. rewrite (R_build_all (i_tsurfs st) (mkStream r (nl s1)) (mkStream r' (nl s1'))) by now split.
  apply res_rel_refl. reflexivity.
Qed.

(** ** Solids *)
Definition Rt {A} (x y : A * bytes * istream) : Prop :=
  fst (fst x) = fst (fst y) /\ Rl (snd (fst x)) (snd (fst y)) /\ Rs (snd x) (snd y).
Definition Rls (x y : bytes * istream) : Prop := Rl (fst x) (fst y) /\ Rs (snd x) (snd y).
Lemma last_line (b : bool) l l' : Rl l l' -> Rl (if b then [] else l) (if b then [] else l').
Proof. destruct b; [intros _; apply Rl_refl|auto]. Qed.
Lemma R_lso_vertices crs vp sv l l' b ls ls' : Rl l l' -> Forall2 Rl ls ls' ->
  res_rel Rt (lso_vertices F crs vp sv l b ls) (lso_vertices F crs vp sv l' b ls').
Proof.
  intros H1 H2. revert sv l l' H1. induction H2 as [|k k' r r' K1 K2 IH]; intros sv l l' H1; cbn [lso_vertices].
  - unfold lso_vertex. rewrite (Rl_split l l'), (Rl_starts l l') by (nocr || assumption). same. intros sv' ? <-.
    split; [reflexivity|]. split; [now apply last_line|]. split; [constructor|reflexivity].
  - unfold lso_vertex at 1 2. rewrite (Rl_split l l'), (Rl_starts l l') by (nocr || assumption). same. intros sv' ? <-.
    rewrite (Rl_contains k k') by (unb || discriminate || assumption). destruct (contains k "VRTX"); [now apply IH|].
    split; [reflexivity|]. split; [assumption|]. split; [assumption|reflexivity].
Qed.
Lemma R_skip_indicators kind l l' s s' : unblank kind -> Rl l l' -> Rs s s' -> res_rel Rls (skip_indicators kind l s) (skip_indicators kind l' s').
Proof.
  intros Hk H1 H2. unfold skip_indicators.
  assert (K : forall p q, unblank p -> unblank q -> wordy p = true -> okkw (p ++ kind ++ q)).
  { intros p q Hp Hq Wp. split; [now destruct p|]. left. apply Forall_app. split; [assumption|]. apply Forall_app. now split. }
  rewrite (Rl_starts l l') by (assumption || (apply K; [unb|unb|reflexivity])). destruct (starts_with l _); [|split; assumption].
  eapply res_rel_bind; [apply R_goto_keyword; [apply K; [unb|unb|reflexivity]|exact H2]|]. intros [a t] [a' t'] [E1 E2]. cbn [fst snd] in *.
  pose proof (R_getline l l' t t' H1 E2) as G. destruct (getline l t) as [[g x] u], (getline l' t') as [[g' x'] u'].
  destruct G as (_ & G1 & G2). split; assumption.
Qed.
Lemma R_lso_tetra tp n st l l' k k' : Rl l l' -> Rl k k' -> lso_tetra F tp n st l' k' = lso_tetra F tp n st l k.
Proof. intros H1 H2. unfold lso_tetra. now rewrite (Rl_split l l'), (Rl_split k k'). Qed.
Lemma R_lso_tetras tp n b m : forall st l l' ls ls', (List.length ls <= m)%nat -> Rl l l' -> Forall2 Rl ls ls' ->
  res_rel Rt (lso_tetras F tp n st l b ls) (lso_tetras F tp n st l' b ls').
Proof.
  induction m as [|m IH]; intros st l l' ls ls' L H1 H2; destruct H2 as [|k k' r r' K1 K2]; try (cbn in L; lia); cbn [lso_tetras]; cbv zeta.
  - eapply res_rel_bind; [apply res_rel_eq; symmetry; apply R_lso_tetra; [exact H1|now apply last_line]|]. intros st' ? <-. split; [reflexivity|]. split; [now apply last_line|]. split; [constructor|reflexivity].
  - eapply res_rel_bind; [apply res_rel_eq; symmetry; apply R_lso_tetra; [exact H1|now apply last_line]|]. intros st' ? <-. split; [reflexivity|]. split; [now apply last_line|]. split; [constructor|reflexivity].
  - rewrite (R_lso_tetra tp n st l l' k k') by assumption. same. intros st' ? <-.
    destruct K2 as [|j j' q q' J1 J2].
    + split; [reflexivity|]. split; [now apply last_line|]. split; [constructor|reflexivity].
    + rewrite (Rl_starts j j') by (nocr || assumption). destruct (starts_with j _).
      * apply IH; [cbn in L; lia|assumption|assumption].
      * split; [reflexivity|]. split; [assumption|]. split; [assumption|reflexivity].
Qed.
Lemma R_lso_triangles sv tets s b ls ls' : Forall2 Rl ls ls' -> forall st l l', Rl l l' ->
  res_rel Rt (lso_triangles F sv tets s st l b ls) (lso_triangles F sv tets s st l' b ls').
Proof.
  induction 1 as [|k k' r r' K1 K2 IH]; intros st l l' H; cbn [lso_triangles].
  - split; [reflexivity|]. split; [now apply last_line|]. split; [constructor|reflexivity].
  - rewrite (Rl_starts k k') by (nocr || assumption). destruct (starts_with k _).
    + unfold lso_trgl. rewrite (Rl_split k k') by assumption. same. intros st' ? <-. now apply IH.
    + split; [reflexivity|]. split; [assumption|]. split; [assumption|reflexivity].
Qed.
Lemma R_lso_tfaces fuel : forall sv tets name st l l' s s', Rl l l' -> Rs s s' ->
  res_rel Rt (lso_tfaces F fuel sv tets name st l s) (lso_tfaces F fuel sv tets name st l' s').
Proof.
  induction fuel as [|f IH]; intros sv tets name st l l' s s' H1 H2; [exact I|]. cbn [lso_tfaces].
  rewrite (Rl_starts l l') by (nocr || assumption). destruct (starts_with l _); [|split; [reflexivity|split; assumption]].
  pose proof (R_getline l l' s s' H1 H2) as G. destruct (getline l s) as [[g x] u], (getline l' s') as [[g' x'] u'].
  destruct G as (_ & G1 & [G2 G3]). rewrite <- G3.
  eapply res_rel_bind; [apply R_lso_triangles; eassumption|]. intros [[ts l2] s2] [[ts' l2'] s2'] (E1 & E2 & E3). cbn [fst snd] in *. subst ts'.
  now apply IH.
Qed.
Lemma R_lso_surfaces fuel : forall sv tets st hs l l' s s', Rl l l' -> Rs s s' ->
  res_rel Rt (lso_surfaces F fuel sv tets st hs l s) (lso_surfaces F fuel sv tets st hs l' s').
Proof.
  induction fuel as [|f IH]; intros sv tets st hs l l' s s' H1 H2; [exact I|]. cbn [lso_surfaces].
  rewrite (Rl_starts l l'), (Rl_split l l') by (nocr || assumption). destruct (starts_with l _); [|split; [reflexivity|split; assumption]].
  pose proof (R_getline l l' s s' H1 H2) as G. destruct (getline l s) as [[g x] u], (getline l' s') as [[g' x'] u'].
  destruct G as (_ & G1 & G2). rewrite <- (Rs_length _ _ G2).
  eapply res_rel_bind; [apply R_lso_tfaces; eassumption|]. intros [[ts l2] s2] [[ts' l2'] s2'] (E1 & E2 & E3). cbn [fst snd] in *. subst ts'.
  now apply IH.
Qed.
Lemma R_lso_blocks vp tp fuel : forall sv st ss l l' s s', Rl l l' -> Rs s s' ->
  lso_blocks F vp tp fuel sv st ss l' s' = lso_blocks F vp tp fuel sv st ss l s.
Proof.
  induction fuel as [|f IH]; intros sv st ss l l' s s' H1 H2; [reflexivity|]. cbn [lso_blocks].
  rewrite (Rl_starts l l'), (Rl_split l l') by (nocr || assumption). destruct (starts_with l _); [|reflexivity].
  apply bind_ext. intros name _. apply bind_ext. intros [b bad] _.
  pose proof (R_getline l l' s s' H1 H2) as G. destruct (getline l s) as [[g x] u], (getline l' s') as [[g' x'] u'].
  destruct G as (_ & G1 & G2). now rewrite (IH sv st ss x x' u u').
Qed.
Lemma R_lso_body crs vp tp title s s' : Rs s s' -> lso_body F crs vp tp title s' = lso_body F crs vp tp title s.
Proof.
  intros H. symmetry. apply res_rel_eq. unfold lso_body.
  eapply res_rel_bind; [apply R_goto_keywords; [|exact H]|].
  { repeat (apply Forall_cons; [nocr|]). constructor. }
  intros [l s1] [l' s1'] [E1 [E2 E3]]. cbn [fst snd] in *. rewrite <- E3.
  eapply res_rel_bind; [apply R_lso_vertices; eassumption|]. intros [[sv l2] s2] [[sv' l2'] s2'] (E & El & Es). cbn [fst snd] in E, El, Es. subst sv'.
  eapply res_rel_bind; [apply R_skip_indicators; [unb|exact El|exact Es]|]. intros [l3 s3] [l3' s3'] [El3 [Es3 En3]]. cbn [fst snd] in El3, Es3, En3.
  rewrite <- En3.
  eapply res_rel_bind; [eapply R_lso_tetras; [apply Nat.le_refl|exact El3|exact Es3]|].
  intros [[st l4] s4] [[st' l4'] s4'] (E4 & El4 & Es4). cbn [fst snd] in E4, El4, Es4. subst st'.
  eapply res_rel_bind; [apply R_skip_indicators; [unb|exact El4|exact Es4]|]. intros [l5 s5] [l5' s5'] [El5 Es5]. cbn [fst snd] in El5, Es5.
  eapply res_rel_bind with (P := Rls).
  { rewrite (Rl_starts l5 l5') by (nocr || assumption). destruct (starts_with l5 _); [now split|].
    eapply res_rel_bind; [apply R_goto_keyword; [nocr|exact Es5]|]. intros [k t] [k' t'] [K1 K2]. now split. }
  intros [l6 s6] [l6' s6'] [El6 Es6]. cbn [fst snd] in El6, Es6.
  pose proof (R_getline l6 l6' s6 s6' El6 Es6) as G. destruct (getline l6 s6) as [[g x] u], (getline l6' s6') as [[g' x'] u'].
  destruct G as (_ & G1 & G2). rewrite <- (Rs_length _ _ G2).
  eapply res_rel_bind; [apply R_lso_surfaces; eassumption|].
  intros [[[ss hs] l7] s7] [[[ss' hs'] l7'] s7'] (E7 & El7 & Es7). cbn [fst snd] in E7, El7, Es7. injection E7 as <- <-.
  rewrite <- (Rs_length _ _ Es7). rewrite (R_lso_blocks vp tp _ sv st ss l7 l7' s7 s7') by assumption.
  apply res_rel_refl. reflexivity.
Qed.
Lemma sp_lso text text' (HR : Rs (open_text text) (open_text text')) : read_lso F text' = read_lso F text.
Proof.
  unfold read_lso. pose proof (R_goto_if (lit "GOCAD LightTSolid") _ _ ltac:(nocr) HR) as E. symmetry.
  destruct (goto_if _ (open_text text)) as [[]s0], (goto_if _ (open_text text')) as [[]s0']; try contradiction; [|reflexivity].
  destruct E as [_ E]. apply res_rel_eq.
  eapply res_rel_bind; [apply R_read_header; exact E|]. intros [n s] [n' s'] [En Es]. cbn [fst snd] in En, Es. subst n'.
  eapply res_rel_bind; [apply R_read_CRS; exact Es|]. intros [c s1] [c' s1'] [Ec Es1]. cbn [fst snd] in Ec, Es1. subst c'.
  eapply res_rel_bind; [apply R_prop_header; [constructor|now left|exact Es1]|]. intros [vp s2] [vp' s2'] [Ev Es2]. cbn [fst snd] in Ev, Es2. subst vp'.
  eapply res_rel_bind; [apply R_prop_header; [unb|now right|exact Es2]|]. intros [tp s3] [tp' s3'] [Et Es3]. cbn [fst snd] in Et, Es3. subst tp'.
  apply res_rel_eq. symmetry. now apply R_lso_body.
Qed.


(** ** Voxets *)
Lemma R_nth n ls ls' d d' : Forall2 Rl ls ls' -> Rl d d' -> Rl (nth n ls d) (nth n ls' d').
Proof. intros H Hd. revert n. induction H as [|l l' r r' H1 H2 IH]; intros [|n]; cbn [nth]; auto. Qed.
Lemma R_skipn n ls ls' : Forall2 Rl ls ls' -> Forall2 Rl (skipn n ls) (skipn n ls').
Proof. intros H. revert n. induction H as [|l l' r r' H1 H2 IH]; intros [|n]; cbn [skipn]; auto. Qed.
(** The same files, with other spacings. *)
Definition Rdisk (files files' : bytes -> option bytes) : Prop := forall p,
  match files p, files' p with Some t, Some t' => Rs (open_text t) (open_text t') | None, None => True | _, _ => False end.
Lemma scan_found p ls l r : scan p ls = Some (l, r) -> p l = true.
Proof. induction ls as [|k ls IH]; [discriminate|]. cbn [scan]. destruct (p k) eqn:E; [|exact IH]. intros H. injection H as <- _. exact E. Qed.
Lemma goto_if_found kw s l t : goto_if kw s = (Some l, t) -> starts_with l kw = true.
Proof. unfold goto_if. destruct (scan _ _) as [[k r]|] eqn:E; [|discriminate]. intros H. injection H as <- _. now apply scan_found in E. Qed.
Lemma R_data_file files files' folder m s s' : (forall l, starts_with l "ASCII_DATA_FILE" = true -> fixed l = true) ->
  Rdisk files files' -> Rs s s' -> read_data_file F files' folder m s' = read_data_file F files folder m s.
Proof.
  intros Hf Hd H. unfold read_data_file, get_data_file.
  pose proof (R_goto_if (lit "ASCII_DATA_FILE") s s' ltac:(nocr) H) as E.
  pose proof (goto_if_found (lit "ASCII_DATA_FILE") s) as Hs.
  destruct (goto_if _ s) as [[l|] t], (goto_if _ s') as [[l'|] t']; try contradiction; [|reflexivity].
  destruct E as [[_ El] _]. rewrite (El (Hf l (Hs l t eq_refl))). specialize (Hd (folder ++ strip_cr (clean_name 0 l))).
  destruct (files _) as [data|], (files' _) as [data'|]; try contradiction; [|reflexivity].
  destruct Hd as [D Dn]. rewrite <- Dn.
  assert (X : Rl (nth 1 (pending (open_text data)) (if nl (open_text data) then [] else nth 0 (pending (open_text data)) []))
                 (nth 1 (pending (open_text data')) (if nl (open_text data) then [] else nth 0 (pending (open_text data')) []))).
  { apply R_nth; [exact D|]. apply last_line. apply R_nth; [exact D|apply Rl_refl]. }
  rewrite (Rl_split _ _ X). destruct (Nat.ltb _ 4); [reflexivity|]. cbv zeta.
  apply R_foldM; [|now apply R_skipn]. intros b k k' HL. unfold vo_row. now rewrite (Rl_split k k').
Qed.
Lemma sp_vo dist divn files files' folder text text' : (forall l, starts_with l "ASCII_DATA_FILE" = true -> fixed l = true) ->
  Rdisk files files' -> Rs (open_text text) (open_text text') ->
  read_vo F dist divn files' folder text' = read_vo F dist divn files folder text.
Proof.
  intros Hf Hd HR. unfold read_vo. pose proof (R_goto_if (lit "GOCAD Voxet") _ _ ltac:(nocr) HR) as E. symmetry.
  destruct (goto_if _ (open_text text)) as [[]s0], (goto_if _ (open_text text')) as [[]s0']; try contradiction; [|reflexivity].
  destruct E as [_ E]. apply res_rel_eq.
  eapply res_rel_bind; [apply R_read_header; exact E|]. intros [n s] [n' s'] [En Es]. cbn [fst snd] in En, Es. subst n'.
  eapply res_rel_bind; [apply R_read_CRS; exact Es|]. intros [c s1] [c' s1'] [Ec Es1]. cbn [fst snd] in Ec, Es1. subst c'.
  unfold initialize_grid, read_cells_number. rewrite !bind_assoc.
  Ltac axis Es := eapply res_rel_bind; [apply R_goto_keyword; [nocr|exact Es]|];
    let l := fresh "l" in let s := fresh "s" in let l' := fresh "l" in let s' := fresh "s" in let El := fresh "El" in let Es' := fresh "Es" in
    intros [l s] [l' s'] [El Es']; cbn [fst snd] in El, Es'; clear Es; rename Es' into Es;
    rewrite ?(Rl_split l l') by assumption; rewrite ?(R_read_coord l l') by assumption; rewrite ?bind_assoc.
  axis Es1. same. intros o ? <-. rewrite !bind_assoc.
  axis Es1. same. intros u ? <-. rewrite !bind_assoc.
  axis Es1. same. intros v ? <-. rewrite !bind_assoc.
  axis Es1. same. intros w ? <-. rewrite !bind_assoc.
  axis Es1.
  same. intros a ? <-. rewrite !bind_assoc. same. intros nx ? <-. rewrite !bind_assoc. same. intros bq ? <-. rewrite !bind_assoc.
  same. intros ny ? <-. rewrite !bind_assoc. same. intros d ? <-. rewrite !bind_assoc. same. intros nz ? <-. cbn [bind].
  apply res_rel_eq. symmetry. now apply R_data_file.
Qed.

(** ** Corner-point grids *)
Lemma R_until_F l l' ls ls' : Rl l l' -> Forall2 Rl ls ls' -> res_rel (fun x y => Rl (fst x) (fst y) /\ Forall2 Rl (snd x) (snd y)) (until_F l ls) (until_F l' ls').
Proof.
  intros H H2. revert l l' H. induction H2 as [|k k' r r' K1 K2 IH]; intros l l' H; cbn [until_F];
    rewrite (Rl_contains l l') by (unb || discriminate || assumption); destruct (contains l "F"); [split; cbn; auto|exact I|split; cbn; auto|now apply IH].
Qed.
Lemma R_read_dimensions s s' : Rs s s' -> res_rel Rvs (read_dimensions s) (read_dimensions s').
Proof.
  intros H. unfold read_dimensions. eapply res_rel_bind; [apply R_goto_keyword; [nocr|exact H]|].
  intros [l t] [l' t'] [El [Et En]]. cbn [fst snd] in *.
  eapply res_rel_bind; [apply R_until_F; eassumption|]. intros [k r] [k' r'] [Ek Er]. cbn [fst snd] in *.
  rewrite (Rl_split k k') by assumption. same. intros a ? <-. same. intros nx ? <-. same. intros b ? <-. same. intros ny ? <-.
  same. intros c ? <-. same. intros nz ? <-. split; [reflexivity|]. split; assumption.
Qed.
(** The lines after the INCLUDE lines must be the same ([after]: the line before is one of them). *)
Inductive Rg : bool -> list bytes -> list bytes -> Prop :=
| Rg_nil after : Rg after [] []
| Rg_cons (after : bool) l l' r r' : Rl l l' -> (after = true -> l' = l) -> (starts_with l "INCLUDE" = true -> r = [] -> l' = l) ->
    Rg (starts_with l "INCLUDE") r r' -> Rg after (l :: r) (l' :: r').
Lemma Rg_all after ls ls' : Rg after ls ls' -> Forall2 Rl ls ls'.
Proof. induction 1; constructor; assumption. Qed.
Lemma Rg_any after ls ls' : Rg after ls ls' -> Rg false ls ls'.
Proof. intros H. inversion H; subst; constructor; auto. discriminate. Qed.
Lemma Rg_suffix a : forall after ls ls' b b', Rg after ls ls' -> ls = a ++ b -> suffix b' ls' -> List.length b = List.length b' -> Rg false b b'.
Proof.
  induction a as [|x a IH]; intros after ls ls' b b' H E [pre E'] L.
  - cbn [app] in E. subst b. assert (pre = []) as ->.
    { apply length_zero_iff_nil. pose proof (Forall2_len _ _ (Rg_all _ _ _ H)) as Q. rewrite E', app_length in Q. lia. }
    cbn [app] in E'. subst b'. eapply Rg_any; eauto.
  - cbn [app] in E. subst ls. destruct ls' as [|l' r']; [inversion H|].
    assert (H4 : Rg (starts_with x "INCLUDE") (a ++ b) r') by now inversion H.
    destruct pre as [|y pre].
    + exfalso. cbn [app] in E'. subst b'. pose proof (Forall2_len _ _ (Rg_all _ _ _ H4)) as Q. cbn [List.length] in L. rewrite app_length in Q. lia.
    + cbn [app] in E'. assert (E6 : r' = pre ++ b') by congruence. eapply (IH _ _ _ b b' H4 eq_refl); [now exists pre|exact L].
Qed.
Lemma R_includes b n : forall after ls ls' bk bk' m, (List.length ls <= n)%nat -> Rg after ls ls' -> Forall2 Rl bk bk' ->
  res_rel Rv (includes b ls bk m) (includes b ls' bk' m).
Proof.
  induction n as [|n IH]; intros after ls ls' bk bk' m L H Hb; destruct H as [after|after l l' r r' H1 Ha Hl H2]; try (cbn in L; lia); cbn [includes]; try (split; auto; fail).
  rewrite (Rl_starts l l') by (nocr || assumption). cbn in L. destruct (starts_with l "INCLUDE"); [|eapply IH; [lia|exact H2|assumption]].
  remember true as t eqn:Et in H2. destruct H2 as [t|t k k' q q' K1 Ka Kl K2]; subst t.
  - rewrite (Hl eq_refl eq_refl). same. intros m' ? <-. split; [reflexivity|constructor].
  - rewrite (Ka eq_refl). same. intros m' ? <-. eapply IH; [cbn in L; lia|exact K2|]. eapply Rg_all; exact K2.
Qed.
Lemma R_pillars_loop b cap n : forall cur cur' ls ls' acc, (List.length ls <= n)%nat -> Rl cur cur' -> Forall2 Rl ls ls' ->
  res_rel Rv (pillars_loop F b cap cur ls acc) (pillars_loop F b cap cur' ls' acc).
Proof.
  induction n as [|n IH]; intros cur cur' ls ls' acc L Hc H; destruct H as [|l l' r r' H1 H2]; try (cbn in L; lia); cbn [pillars_loop];
    rewrite (Rl_starts cur cur'), (Rl_split cur cur') by (nocr || assumption); (destruct (starts_with cur "/"); [split; [reflexivity|cbn [snd]; auto using Forall2_cons, Forall2_nil]|]);
    destruct (string_split cur) as [|t1 [|t2 [|t3 [|t4 [|t5 [|t6 [|t7 ts]]]]]]]; try exact I; try reflexivity.
  1,2,3,4: same; intros vs ? <-; same; intros t ? <-; try exact I.
  1,2: same; intros bt ? <-; same; intros acc' ? <-; destruct b; exact I.
  - apply IH; [cbn in L; lia|assumption|assumption].
  - same. intros vs ? <-. same. intros t ? <-. rewrite (Rl_split l l') by assumption.
    same. intros x ? <-. same. intros vx ? <-. same. intros y ? <-. same. intros vy ? <-. same. intros z ? <-. same. intros vz ? <-.
    same. intros acc' ? <-. destruct H2 as [|k k' q q' K1 K2]; [destruct b; exact I|]. apply IH; [cbn in L; lia|assumption|assumption].
  - same. intros vs ? <-. same. intros t ? <-. same. intros bt ? <-. same. intros acc' ? <-. apply IH; [cbn in L; lia|assumption|assumption].
Qed.
Lemma R_read_pillars nx ny s s' : Rs s s' -> res_rel Rvs (read_pillars F nx ny s) (read_pillars F nx ny s').
Proof.
  intros H. unfold read_pillars. eapply res_rel_bind; [apply R_goto_keyword; [nocr|exact H]|].
  intros [l t] [l' t'] [El Et]. cbn [fst snd] in *.
  pose proof (R_getline l l' t t' El Et) as G. destruct (getline l t) as [[g x] u], (getline l' t') as [[g' x'] u'].
  destruct G as (_ & G1 & [G2 G3]). rewrite <- G3.
  eapply res_rel_bind; [eapply R_pillars_loop; [apply Nat.le_refl|exact G1|exact G2]|]. intros [a r] [a' r'] [E1 E2]. cbn [fst snd] in *. subst a'.
  split; [reflexivity|split; [assumption|reflexivity]].
Qed.
Lemma R_depths_loop b cap cur cur' ls ls' acc : Rl cur cur' -> Forall2 Rl ls ls' ->
  res_rel Rv (depths_loop F b cap cur ls acc) (depths_loop F b cap cur' ls' acc).
Proof.
  intros Hc H. revert cur cur' Hc acc. induction H as [|l l' r r' H1 H2 IH]; intros cur cur' Hc acc; cbn [depths_loop];
    rewrite (Rl_starts cur cur'), (Rl_split cur cur') by (nocr || assumption); (destruct (starts_with cur "/"); [split; [reflexivity|cbn [snd]; auto using Forall2_cons, Forall2_nil]|]); same; intros acc' ? <-.
  - destruct (string_split cur); [exact I|destruct b; exact I].
  - now apply IH.
Qed.
Lemma R_read_depths nx ny nz s s' : Rs s s' -> res_rel Rvs (read_depths F nx ny nz s) (read_depths F nx ny nz s').
Proof.
  intros H. unfold read_depths. eapply res_rel_bind; [apply R_goto_keyword; [nocr|exact H]|].
  intros [l t] [l' t'] [El Et]. cbn [fst snd] in *.
  pose proof (R_getline l l' t t' El Et) as G. destruct (getline l t) as [[g x] u], (getline l' t') as [[g' x'] u'].
  destruct G as (_ & G1 & [G2 G3]). rewrite <- G3.
  eapply res_rel_bind; [eapply R_depths_loop; [exact G1|exact G2]|]. intros [a r] [a' r'] [E1 E2]. cbn [fst snd] in *. subst a'.
  split; [reflexivity|split; [assumption|reflexivity]].
Qed.
Lemma R_other_file files files' f : Rdisk files files' -> Rs (other_file files f) (other_file files' f).
Proof. intros H. unfold other_file. specialize (H f). destruct (files f), (files' f); try contradiction; [exact H|]. split; [constructor|reflexivity]. Qed.
Lemma dims_suffix s x t : read_dimensions s = Ok (x, t) -> suffix (pending t) (pending s).
Proof.
  unfold read_dimensions. intros H. apply bind_inv0 in H as [[l s1] [G H]]. apply goto_keyword_suffix in G.
  apply bind_inv0 in H as [[k r] [U H]].
  repeat (apply bind_inv0 in H as [? [_ H]]). injection H as _ <-. cbn [pending].
  apply suffix_trans with (pending s1); [|now apply suffix_tl in G]. clear - U.
  remember (pending s1) as ls eqn:E. clear E. revert l U. induction ls as [|c ls IH]; intros l U; cbn [until_F] in U; destruct (contains l "F"); try discriminate.
  - injection U as _ <-. apply suffix_refl.
  - injection U as _ <-. apply suffix_refl.
  - apply suffix_cons. eapply IH; exact U.
Qed.
Lemma sp_grdecl A coloc files files' text text' : Rdisk files files' -> nl (open_text text) = nl (open_text text') ->
  Rg false (pending (open_text text)) (pending (open_text text')) ->
  read_grdecl F A coloc files' text' = read_grdecl F A coloc files text.
Proof.
  intros Hd Hn HG. symmetry. unfold read_grdecl. apply res_rel_eq.
  assert (HR : Rs (open_text text) (open_text text')) by (split; [eapply Rg_all; exact HG|exact Hn]).
  pose proof (R_read_dimensions _ _ HR) as D.
  destruct (read_dimensions (open_text text)) as [[[[nx ny] nz] s]| | |] eqn:D1, (read_dimensions (open_text text')) as [[[[nx' ny'] nz'] s']| | |] eqn:D2;
    try contradiction; cbn [bind res_rel] in *; try assumption; try exact I.
  destruct D as [E [Es En]]. cbn [fst snd] in E, Es, En. injection E as <- <- <-. rewrite <- En.
  apply dims_suffix in D1, D2. destruct D1 as [a D1]. pose proof (Rg_suffix a _ _ _ _ _ HG D1 D2 (Forall2_len _ _ Es)) as HG2.
  eapply res_rel_bind; [eapply R_includes; [apply Nat.le_refl|exact HG2|exact Es]|]. intros [m r] [m' r'] [Em Er]. cbn [fst snd] in Em, Er. subst m'.
  assert (R0 : Rs (mkStream r (nl s)) (mkStream r' (nl s))) by now split.
  eapply res_rel_bind with (P := Rvs).
  { destruct (lookup "COORD" m) as [f|]; [|now apply R_read_pillars].
    eapply res_rel_bind; [apply R_read_pillars; apply (R_other_file files files'); exact Hd|]. intros [p t] [p' t'] [E1 _]. cbn [fst snd] in *. subst p'. now split. }
  intros [p t] [p' t'] [E1 E2]. cbn [fst snd] in *. subst p'.
  eapply res_rel_bind with (P := Rvs).
  { destruct (lookup "ZCORN" m) as [f|]; [|now apply R_read_depths].
    eapply res_rel_bind; [apply R_read_depths; apply (R_other_file files files'); exact Hd|]. intros [q w] [q' w'] [E3 _]. cbn [fst snd] in *. subst q'. now split. }
  intros [q w] [q' w'] [E3 _]. cbn [fst snd] in *. subst q'. apply res_rel_refl. reflexivity.
Qed.
End Spacing.
