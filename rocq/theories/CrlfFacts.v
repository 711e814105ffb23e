(** * Related streams lead to related outcomes; used for CR LF files. *)
From Coq Require Import ZArith List Lia Bool Ascii String.
From Verif Require Import Base Text TextFacts GocadModel MeshModel TsModel Spec GocadFacts.
Import ListNotations.
Local Open Scope string_scope.
Local Open Scope list_scope.
Local Open Scope Z_scope.

(** Both outcomes fail the same way, or both succeed with related values. *)
Definition res_rel {A B} (P : A -> B -> Prop) (r : res A) (r' : res B) : Prop :=
  match r, r' with
  | Ok a, Ok b => P a b
  | Throw e, Throw e' => e = e'
  | UB, UB => True
  | Hang, Hang => True
  | _, _ => False
  end.
Lemma res_rel_bind {A B A' B'} (P : A -> A' -> Prop) (Q : B -> B' -> Prop) r r' f f' :
  res_rel P r r' -> (forall a a', P a a' -> res_rel Q (f a) (f' a')) ->
  res_rel Q (bind r f) (bind r' f').
Proof. destruct r, r'; simpl; intros H1 H2; auto; try contradiction. Qed.
Lemma res_rel_refl {A} (P : A -> A -> Prop) r : (forall a, P a a) -> res_rel P r r.
Proof. destruct r; simpl; auto. Qed.
Lemma res_rel_eq {A} (r r' : res A) : res_rel eq r r' <-> r = r'.
Proof. split; [|intros ->; now apply res_rel_refl]. destruct r, r'; simpl; intros H; try contradiction; congruence. Qed.
Lemma res_rel_mono {A B} (P Q : A -> B -> Prop) r r' :
  (forall a b, P a b -> Q a b) -> res_rel P r r' -> res_rel Q r r'.
Proof. destruct r, r'; simpl; auto. Qed.

Section Crlf.
Definition Rl (l l' : bytes) : Prop := l' = l \/ l' = l ++ [CR].
Definition Rs (s s' : istream) : Prop := Forall2 Rl (pending s) (pending s') /\ nl s = nl s'.

(** Same value, related remaining lines. *)
Definition Rv {A} (x y : A * list bytes) : Prop := fst x = fst y /\ Forall2 Rl (snd x) (snd y).
Definition Rvs {A} (x y : A * istream) : Prop := fst x = fst y /\ Rs (snd x) (snd y).

Lemma Rl_split l l' : Rl l l' -> string_split l' = string_split l.
Proof. intros [-> | ->]; [reflexivity|apply string_split_CR]. Qed.
Lemma Rl_quotes l l' : Rl l l' -> split_quotes l' = split_quotes l.
Proof. intros H. unfold split_quotes. now rewrite (Rl_split l l'). Qed.
Lemma Rl_starts l l' kw : ~ In CR kw -> Rl l l' -> starts_with l' kw = starts_with l kw.
Proof. intros Hk [-> | ->]; [reflexivity|now apply starts_with_CR]. Qed.

Definition no_CR (kw : bytes) : bool := negb (existsb (Ascii.eqb CR) kw).
Lemma no_CR_ok kw : no_CR kw = true -> ~ In CR kw.
Proof.
  intros H Hi. apply negb_true_iff in H. apply Bool.not_true_iff_false in H. apply H.
  apply existsb_exists. exists CR. split; [assumption|apply Ascii.eqb_refl].
Qed.

Lemma R_scan p p' ls ls' : (forall l l', Rl l l' -> p' l' = p l) -> Forall2 Rl ls ls' ->
  match scan p ls, scan p' ls' with
  | Some (l, r), Some (l', r') => Rl l l' /\ Forall2 Rl r r'
  | None, None => True
  | _, _ => False
  end.
Proof.
  intros Hp. induction 1 as [|l l' r r' H1 H2 IH]; simpl; auto.
  rewrite (Hp l l') by assumption. destruct (p l); auto.
Qed.
Lemma R_goto_if kw s s' : ~ In CR kw -> Rs s s' ->
  match goto_if kw s, goto_if kw s' with
  | (Some l, t), (Some l', t') => Rl l l' /\ Rs t t'
  | (None, t), (None, t') => Rs t t'
  | _, _ => False
  end.
Proof.
  intros Hk H. unfold goto_if.
  pose proof (R_scan (fun l => starts_with l kw) (fun l => starts_with l kw) (pending s) (pending s')) as E.
  destruct H as [H Hn]. specialize (E ltac:(intros; now apply Rl_starts) H).
  destruct (scan _ (pending s)) as [[l r]|], (scan _ (pending s')) as [[l' r']|]; try contradiction; [|now split].
  split; [apply E|]. split; [apply E|exact Hn].
Qed.
Lemma R_goto_keyword kw s s' : ~ In CR kw -> Rs s s' ->
  res_rel (fun x y => Rl (fst x) (fst y) /\ Rs (snd x) (snd y)) (goto_keyword kw s) (goto_keyword kw s').
Proof.
  intros Hk H. unfold goto_keyword. pose proof (R_goto_if kw s s' Hk H) as E.
  destruct (goto_if kw s) as [[l|] t], (goto_if kw s') as [[l'|] t']; try contradiction; simpl; auto.
Qed.
Lemma R_goto_keywords kws s s' : Forall (fun kw => ~ In CR kw) kws -> Rs s s' ->
  res_rel (fun x y => Rl (fst x) (fst y) /\ Rs (snd x) (snd y)) (goto_keywords kws s) (goto_keywords kws s').
Proof.
  intros Hk H. unfold goto_keywords.
  pose proof (R_scan (fun l => existsb (starts_with l) kws) (fun l => existsb (starts_with l) kws)
                (pending s) (pending s')) as E.
  assert (X : forall l l', Rl l l' -> existsb (starts_with l') kws = existsb (starts_with l) kws).
  { intros l l' HR. clear E. induction Hk as [|k r H1 H2 IH]; [reflexivity|]. cbn [existsb].
    rewrite (Rl_starts l l') by assumption. now rewrite IH. }
  destruct H as [H Hn]. specialize (E X H).
  destruct (scan _ (pending s)) as [[l r]|], (scan _ (pending s')) as [[l' r']|]; try contradiction; [|reflexivity].
  split; [apply E|]. split; [apply E|exact Hn].
Qed.
Lemma R_next_if kw s s' : ~ In CR kw -> Rs s s' ->
  match next_if kw s, next_if kw s' with
  | (Some l, t), (Some l', t') => Rl l l' /\ Rs t t'
  | (None, t), (None, t') => Rs t t'
  | _, _ => False
  end.
Proof.
  intros Hk [H Hn]. unfold next_if, Rs in *. rewrite <- Hn. inversion H as [E1 E2|l l' r r' H1 H2 E1 E2].
  - split; constructor.
  - rewrite (Rl_starts l l') by assumption. destruct (starts_with l kw); cbn [pending nl]; auto.
Qed.
Lemma R_check_keyword kw s s' : ~ In CR kw -> Rs s s' ->
  res_rel Rs (check_keyword kw s) (check_keyword kw s').
Proof.
  intros Hk [H Hn]. unfold check_keyword, Rs in *. rewrite <- Hn. inversion H as [|l l' r r' H1 H2]; simpl; auto.
  rewrite (Rl_starts l l') by assumption. destruct (starts_with l kw); simpl; auto.
Qed.

Lemma Rl_after_first p l l' : ~ In CR p -> p <> [] -> Rl l l' ->
  match after_first p l, after_first p l' with
  | Some x, Some y => Rl x y
  | None, None => True
  | _, _ => False
  end.
Proof.
  intros H1 H2 [-> | ->].
  - destruct (after_first p l); [now left|exact I].
  - rewrite after_first_CR by assumption. destruct (after_first p l); simpl; [now right|exact I].
Qed.
Ltac nocr := apply no_CR_ok; reflexivity.
Lemma R_header_loop n ls ls' : Forall2 Rl ls ls' -> res_rel Rv (header_loop n ls) (header_loop n ls').
Proof.
  intros H. revert n. induction H as [|l l' r r' H1 H2 IH]; intros n; [reflexivity|].
  cbn [header_loop]. rewrite (Rl_starts l l') by (nocr || assumption).
  destruct (starts_with l _); [split; auto|].
  pose proof (Rl_after_first (lit "name:") l l' ltac:(nocr) ltac:(discriminate) H1) as E.
  destruct (after_first _ l), (after_first _ l'); try contradiction; auto.
  rewrite (Rl_split _ _ E). apply IH.
Qed.
Lemma R_read_header s s' : Rs s s' -> res_rel Rvs (read_header s) (read_header s').
Proof.
  intros H. unfold read_header. eapply res_rel_bind; [apply R_check_keyword; [nocr|exact H]|].
  intros t t' [Ht Hn]. eapply res_rel_bind; [apply R_header_loop; exact Ht|].
  intros [a r] [a' r'] [E1 E2]. split; [assumption|split; assumption].
Qed.
Lemma R_crs_loop c ls ls' : Forall2 Rl ls ls' -> res_rel Rv (crs_loop c ls) (crs_loop c ls').
Proof.
  intros H. revert c. induction H as [|l l' r r' H1 H2 IH]; intros c; [reflexivity|].
  cbn [crs_loop]. rewrite (Rl_starts l l') by (nocr || assumption).
  destruct (starts_with l _); [split; auto|].
  unfold crs_line. rewrite (Rl_quotes l l') by assumption.
  eapply res_rel_bind; [apply res_rel_refl with (P := eq); reflexivity|]. intros c1 c2 <-. apply IH.
Qed.
Lemma R_read_CRS s s' : Rs s s' -> res_rel Rvs (read_CRS s) (read_CRS s').
Proof.
  intros H. unfold read_CRS. 
  pose proof (R_next_if (lit "GOCAD_ORIGINAL_COORDINATE_SYSTEM") s s' ltac:(nocr) H) as E.
  destruct (next_if _ s) as [[l|] t], (next_if _ s') as [[l'|] t']; try contradiction.
  - destruct E as [_ [E Hn]]. eapply res_rel_bind; [apply R_crs_loop; exact E|].
    intros [a r] [a' r'] [E1 E2]. split; [assumption|split; assumption].
  - split; auto.
Qed.
Lemma R_kw_line {A} (f : bytes -> res A) kw s s' : ~ In CR kw ->
  (forall l l', Rl l l' -> f l' = f l) -> Rs s s' ->
  res_rel Rvs (do '(line, s1) <- goto_keyword kw s; do d <- f line; Ok (d, s1))
              (do '(line, s1) <- goto_keyword kw s'; do d <- f line; Ok (d, s1)).
Proof.
  intros Hk Hf H. eapply res_rel_bind; [apply R_goto_keyword; eassumption|].
  intros [l t] [l' t'] [E1 E2]. cbn [fst snd] in *. rewrite (Hf l l') by assumption.
  eapply res_rel_bind; [apply res_rel_refl with (P := eq); reflexivity|]. intros c1 c2 <-.
  split; auto.
Qed.
Lemma R_kw_one_string kw n s s' : ~ In CR kw -> Rs s s' ->
  res_rel Rvs (kw_one_string kw n s) (kw_one_string kw n s').
Proof.
  intros Hk H. unfold kw_one_string.
  eapply res_rel_bind; [apply R_goto_keyword; eassumption|].
  intros [l t] [l' t'] [E1 E2]. cbn [fst snd] in *. rewrite (Rl_quotes l l') by assumption.
  eapply res_rel_bind; [apply res_rel_refl with (P := eq); reflexivity|]. intros c1 c2 <-.
  eapply res_rel_bind; [apply res_rel_refl with (P := eq); reflexivity|]. intros d1 d2 <-.
  split; auto.
Qed.
Lemma R_kw_two_strings kw n s s' : ~ In CR kw -> Rs s s' ->
  res_rel Rvs (kw_two_strings kw n s) (kw_two_strings kw n s').
Proof.
  intros Hk H. unfold kw_two_strings. apply R_kw_line; auto.
  intros l l' HR. now rewrite (Rl_split l l').
Qed.
Lemma R_kw_one_double F kw n s s' : ~ In CR kw -> Rs s s' ->
  res_rel Rvs (kw_one_double F kw n s) (kw_one_double F kw n s').
Proof.
  intros Hk H. unfold kw_one_double. apply R_kw_line; auto.
  intros l l' HR. now rewrite (Rl_split l l').
Qed.
Lemma R_kw_one_index kw n s s' : ~ In CR kw -> Rs s s' ->
  res_rel Rvs (kw_one_index kw n s) (kw_one_index kw n s').
Proof.
  intros Hk H. unfold kw_one_index. apply R_kw_line; auto.
  intros l l' HR. now rewrite (Rl_split l l').
Qed.
Ltac step H := eapply res_rel_bind; [apply H; [nocr|eassumption]|];
  let a := fresh "v" in let t := fresh "t" in let a' := fresh "w" in let t' := fresh "t" in
  let E := fresh "E" in
  intros [a t] [a' t'] [E ?]; cbn [fst snd] in *; subst a'.
Ltac stepp H := eapply res_rel_bind; [apply H; [match goal with K : forall k, _ |- _ => apply K; nocr end|eassumption]|];
  let a := fresh "v" in let t := fresh "t" in let a' := fresh "w" in let t' := fresh "t" in
  let E := fresh "E" in
  intros [a t] [a' t'] [E ?]; cbn [fst snd] in *; subst a'.
Lemma R_prop_header F prefix s s' : ~ In CR prefix -> Rs s s' ->
  res_rel Rvs (read_prop_header F prefix s) (read_prop_header F prefix s').
Proof.
  intros Hp H. unfold read_prop_header.
  assert (K : forall k, ~ In CR k -> ~ In CR (prefix ++ k)) by (intros k Hk Hi; apply in_app_or in Hi as [Hi|Hi]; auto).
  pose proof (R_next_if (prefix ++ lit "PROPERTIES") s s' ltac:(apply K; nocr) H) as E.
  destruct (next_if _ s) as [[l|] t], (next_if _ s') as [[l'|] t']; try contradiction.
  2:{ split; auto. }
  destruct E as [E1 E2]. rewrite (Rl_quotes l l') by assumption.
  eapply res_rel_bind; [apply res_rel_refl with (P := eq); reflexivity|]. intros sl ? <-.
  cbn zeta. destruct (Nat.eqb _ 0); [split; auto|].
  eapply res_rel_bind; [apply res_rel_refl with (P := eq); reflexivity|]. intros names ? <-.
  stepp R_kw_two_strings. stepp R_kw_one_double. stepp R_kw_one_string. stepp R_kw_one_string.
  stepp R_kw_two_strings. stepp R_kw_one_index. stepp R_kw_one_string.
  split; auto.
Qed.
Lemma R_read_prop_header F s s' : Rs s s' ->
  res_rel Rvs (read_prop_header F [] s) (read_prop_header F [] s').
Proof. apply R_prop_header. intros []. Qed.
Lemma R_tfaces_loop F ts ls ls' : Forall2 Rl ls ls' ->
  res_rel Rv (tfaces_loop F ts ls) (tfaces_loop F ts ls').
Proof.
  intros H. revert ts. induction H as [|l l' r r' H1 H2 IH]; intros ts; [reflexivity|].
  cbn [tfaces_loop]. unfold tface_line. rewrite (Rl_split l l') by assumption.
  eapply res_rel_bind; [apply res_rel_refl with (P := eq); reflexivity|]. intros [c stop] ? <-.
  destruct stop; [split; auto|apply IH].
Qed.
Lemma R_ilines_loop F ts ls ls' : Forall2 Rl ls ls' ->
  res_rel Rv (ilines_loop F ts ls) (ilines_loop F ts ls').
Proof.
  intros H. revert ts. induction H as [|l l' r r' H1 H2 IH]; intros ts; [split; auto; constructor|].
  cbn [ilines_loop]. unfold iline_line. rewrite (Rl_split l l') by assumption.
  eapply res_rel_bind; [apply res_rel_refl with (P := eq); reflexivity|]. intros [c stop] ? <-.
  destruct stop; [split; auto|apply IH].
Qed.
Lemma R_vset_loop F ts ls ls' : Forall2 Rl ls ls' ->
  res_rel Rv (vset_loop F ts ls) (vset_loop F ts ls').
Proof.
  intros H. revert ts. induction H as [|l l' r r' H1 H2 IH]; intros ts; [reflexivity|].
  cbn [vset_loop]. unfold vset_line. rewrite (Rl_split l l') by assumption.
  eapply res_rel_bind; [apply res_rel_refl with (P := eq); reflexivity|]. intros [c stop] ? <-.
  destruct stop; [split; auto|apply IH].
Qed.
Ltac step0 H := eapply res_rel_bind; [apply H; eassumption|];
  let a := fresh "v" in let t := fresh "t" in let a' := fresh "w" in let t' := fresh "t" in
  let E := fresh "E" in
  intros [a t] [a' t'] [E ?]; cbn [fst snd] in *; subst a'.
Lemma R_read_tsurf F s s' : Rs s s' -> res_rel Rvs (read_tsurf F s) (read_tsurf F s').
Proof.
  intros H. unfold read_tsurf.
  pose proof (R_goto_if (lit "GOCAD TSurf") s s' ltac:(nocr) H) as E.
  destruct (goto_if _ s) as [[l|] t], (goto_if _ s') as [[l'|] t']; try contradiction.
  2:{ split; auto. }
  destruct E as [_ E].
  step0 R_read_header. step0 R_read_CRS. step0 R_read_prop_header.
  unfold read_tfaces. rewrite !bind_assoc.
  eapply res_rel_bind; [apply R_goto_keyword; [nocr|eassumption]|].
  intros [x1 x2] [y1 y2] [_ [E2 En]]. cbn [fst snd] in *. rewrite !bind_assoc.
  eapply res_rel_bind; [apply R_tfaces_loop; exact E2|].
  intros [a r] [a' r'] [Ea Er]. cbn [fst snd] in *. subst a'. split; [reflexivity|split; assumption].
Qed.
Lemma R_read_ecurve F s s' : Rs s s' -> res_rel Rvs (read_ecurve F s) (read_ecurve F s').
Proof.
  intros H. unfold read_ecurve.
  pose proof (R_goto_if (lit "GOCAD PLine") s s' ltac:(nocr) H) as E.
  destruct (goto_if _ s) as [[l|] t], (goto_if _ s') as [[l'|] t']; try contradiction.
  2:{ split; auto. }
  destruct E as [_ E].
  step0 R_read_header. step0 R_read_CRS.
  unfold read_ilines. rewrite !bind_assoc.
  eapply res_rel_bind; [apply R_goto_keyword; [nocr|eassumption]|].
  intros [x1 x2] [y1 y2] [_ [E2 En]]. cbn [fst snd] in *. rewrite !bind_assoc.
  eapply res_rel_bind; [apply R_ilines_loop; exact E2|].
  intros [a r] [a' r'] [Ea Er]. cbn [fst snd] in *. subst a'. split; [reflexivity|split; assumption].
Qed.
Lemma R_read_vs_points F s s' : Rs s s' -> res_rel Rvs (read_vs_points F s) (read_vs_points F s').
Proof.
  intros H. unfold read_vs_points.
  pose proof (R_goto_if (lit "GOCAD VSet") s s' ltac:(nocr) H) as E.
  destruct (goto_if _ s) as [[l|] t], (goto_if _ s') as [[l'|] t']; try contradiction.
  2:{ split; auto. }
  destruct E as [_ E].
  step0 R_read_header. step0 R_read_CRS. step0 R_read_prop_header.
  unfold read_VSet_vertices. rewrite !bind_assoc.
  eapply res_rel_bind; [apply R_goto_keywords; [|eassumption]|].
  { repeat (apply Forall_cons; [nocr|]). constructor. }
  intros [x1 x2] [y1 y2] [E1 [E2 En]]. cbn [fst snd] in *. rewrite !bind_assoc.
  eapply res_rel_bind; [apply R_vset_loop; constructor; [exact E1|exact E2]|].
  intros [a r] [a' r'] [Ea Er]. cbn [fst snd] in *. subst a'. split; [reflexivity|split; assumption].
Qed.
Lemma R_read_ts_loop F n (m : mesh F tri) s s' : Rs s s' -> read_ts_loop n m s = read_ts_loop n m s'.
Proof.
  revert m s s'. induction n as [|n IH]; intros m s s' H; [reflexivity|]. cbn [read_ts_loop].
  apply res_rel_eq. eapply res_rel_bind; [apply R_read_tsurf; exact H|].
  intros [o t] [o' t'] [E1 E2]. cbn [fst snd] in *. subst o'. apply res_rel_eq.
  destruct o; [|reflexivity]. apply bind_ext. intros a _. now apply IH.
Qed.
Lemma R_read_vs_loop F n (m : mesh F unit) s s' : Rs s s' -> read_vs_loop n m s = read_vs_loop n m s'.
Proof.
  revert m s s'. induction n as [|n IH]; intros m s s' H; [reflexivity|]. cbn [read_vs_loop].
  apply res_rel_eq. eapply res_rel_bind; [apply R_read_vs_points; exact H|].
  intros [o t] [o' t'] [E1 E2]. cbn [fst snd] in *. subst o'. apply res_rel_eq.
  destruct o; [|reflexivity]. apply bind_ext. intros a _. now apply IH.
Qed.
Lemma R_read_pl_loop F n (m : mesh F edge) s s' : Rs s s' -> read_pl_loop n m s = read_pl_loop n m s'.
Proof.
  revert m s s'. induction n as [|n IH]; intros m s s' H; [reflexivity|]. cbn [read_pl_loop].
  apply res_rel_eq. eapply res_rel_bind; [apply R_read_ecurve; exact H|].
  intros [o t] [o' t'] [E1 E2]. cbn [fst snd] in *. subst o'. apply res_rel_eq.
  destruct o; [|reflexivity]. apply bind_ext. intros a _. now apply IH.
Qed.
End Crlf.

Lemma cut_crlf_nl cur t : snd (cut cur (to_crlf t)) = snd (cut cur t).
Proof.
  revert cur; induction t as [|c t IH]; intros cur; [reflexivity|]. cbn [to_crlf cut]. destruct (Ascii.eqb c LF) eqn:E.
  - cbn [cut]. change (Ascii.eqb CR LF) with false. change (Ascii.eqb LF LF) with true. cbv iota.
    specialize (IH []). destruct (cut [] t), (cut [] (to_crlf t)). exact IH.
  - cbn [cut]. rewrite E. apply IH.
Qed.
Lemma cut_crlf cur t : Forall2 Rl (fst (cut cur t)) (fst (cut cur (to_crlf t))).
Proof.
  revert cur; induction t as [|c t IH]; intros cur.
  - cbn [to_crlf cut]. destruct cur; repeat constructor.
  - cbn [to_crlf cut]. destruct (Ascii.eqb c LF) eqn:E.
    + apply Ascii.eqb_eq in E. subst c. cbn [cut].
      change (Ascii.eqb CR LF) with false. change (Ascii.eqb LF LF) with true. cbv iota.
      specialize (IH []). destruct (cut [] t), (cut [] (to_crlf t)). cbn [fst] in *.
      constructor; [now right|exact IH].
    + cbn [cut]. rewrite E. apply IH.
Qed.
Lemma open_crlf t : Rs (open_text t) (open_text (to_crlf t)).
Proof.
  unfold open_text, Rs. pose proof (cut_crlf [] t) as H. pose proof (cut_crlf_nl [] t) as H2.
  destruct (cut [] t), (cut [] (to_crlf t)). split; [exact H|now symmetry].
Qed.
Lemma Rs_length s s' : Rs s s' -> List.length (pending s) = List.length (pending s').
Proof. intros [H _]. induction H; simpl; congruence. Qed.
