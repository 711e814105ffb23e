(** * Proofs about the GOCAD sections: quoted names, header, CRS, properties. *)
From Coq Require Import ZArith List Lia Bool Ascii String.
From Verif Require Import Base Text TextFacts GocadModel Spec.
Import ListNotations.
Local Open Scope string_scope.
Local Open Scope list_scope.
Local Open Scope Z_scope.

(** ** Quoted names *)
Lemma word_token w : word w -> token w. Proof. now intros []. Qed.
Lemma words_tokens_of ws : Forall word ws -> Forall token ws.
Proof. apply Forall_impl. intros a; apply word_token. Qed.

Lemma remove_quotes_id l : ~ In QUOTE l -> remove_quotes l = l.
Proof.
  unfold remove_quotes. induction l as [|c t IH]; simpl; intros H; auto.
  replace (Ascii.eqb c QUOTE) with false.
  - simpl. f_equal. apply IH. tauto.
  - symmetry. apply Ascii.eqb_neq. tauto.
Qed.

Lemma join_no_quote ws : Forall word ws -> ~ In QUOTE (join ws).
Proof.
  induction 1 as [|w r [Hw Hq] Hr IH]; [auto|].
  destruct r as [|w2 r]; [exact Hq|].
  cbn [join]. rewrite in_app_iff. intros [H|[H|H]]; [auto|discriminate|auto].
Qed.

Lemma read_name_join ws : Forall word ws -> read_name ws = join ws.
Proof. intros H. apply remove_quotes_id. now apply join_no_quote. Qed.

Lemma string_split_clean ws : Forall word ws -> string_split (join ws) = ws.
Proof. intros H. apply string_split_join. now apply words_tokens_of. Qed.

Lemma normalise_clean n : clean n -> normalise n = n.
Proof.
  intros [ws [_ [H ->]]]. unfold normalise. rewrite string_split_clean by assumption.
  now apply read_name_join.
Qed.

Fixpoint addq (ws : list bytes) : list bytes :=
  match ws with
  | [] => []
  | [w] => [w ++ [QUOTE]]
  | w :: r => w :: addq r
  end.
Definition quoted_tokens (ws : list bytes) : list bytes :=
  match ws with
  | [w] => [w]
  | _ => Q1 :: addq ws
  end.

Lemma join_cons2 w w2 r : join (w :: w2 :: r) = w ++ SP :: join (w2 :: r).
Proof. reflexivity. Qed.

Lemma addq_nil ws : ws <> [] -> addq ws <> [].
Proof. destruct ws as [|w [|w2 r]]; simpl; congruence. Qed.

Lemma join_addq ws : ws <> [] -> join ws ++ [QUOTE] = join (addq ws).
Proof.
  induction ws as [|w r IH]; [congruence|]. intros _.
  destruct r as [|w2 r]; [reflexivity|].
  change (addq (w :: w2 :: r)) with (w :: addq (w2 :: r)).
  rewrite join_cons2, <- app_assoc.
  assert (Hn : addq (w2 :: r) <> []) by (apply addq_nil; congruence).
  destruct (addq (w2 :: r)) as [|a b] eqn:E; [congruence|].
  rewrite join_cons2. cbn [app]. rewrite IH by congruence. reflexivity.
Qed.

Lemma token_Q1 : token Q1. Proof. apply tokenb_ok. reflexivity. Qed.
Lemma token_snoc w c : token w -> isspace c = false -> token (w ++ [c]).
Proof.
  intros [H1 H2] Hc. split; [destruct w; discriminate|].
  apply Forall_app; split; auto.
Qed.
Lemma addq_tokens ws : Forall token ws -> Forall token (addq ws).
Proof.
  induction 1 as [|w r Hw Hr IH]; [constructor|].
  destruct r as [|w2 r]; simpl in *.
  - constructor; [|constructor]. now apply token_snoc.
  - constructor; auto.
Qed.
Lemma quoted_tokens_ok ws : Forall token ws -> Forall token (quoted_tokens ws).
Proof.
  intros H. destruct ws as [|w [|w2 r]]; simpl.
  - constructor; [apply token_Q1|constructor].
  - assumption.
  - constructor; [apply token_Q1|]. now apply (addq_tokens (w :: w2 :: r)).
Qed.

Lemma write_quoted_join ws : ws <> [] -> Forall word ws ->
  write_quoted (join ws) = join (quoted_tokens ws).
Proof.
  intros Hn H. unfold write_quoted. rewrite string_split_clean by assumption.
  rewrite read_name_join by assumption.
  destruct ws as [|w [|w2 r]]; [congruence|reflexivity|].
  replace (1 <? Z.of_nat (List.length (w :: w2 :: r))) with true
    by (symmetry; apply Z.ltb_lt; simpl; lia).
  change (quoted_tokens (w :: w2 :: r)) with (Q1 :: addq (w :: w2 :: r)).
  assert (Hq : addq (w :: w2 :: r) <> []) by (apply addq_nil; congruence).
  rewrite <- app_comm_cons, <- app_comm_cons, join_addq by congruence.
  destruct (addq (w :: w2 :: r)) as [|a b]; [congruence|]. reflexivity.
Qed.

Lemma ends_with_quote_no w : ~ In QUOTE w -> ends_with_quote w = false.
Proof.
  unfold ends_with_quote. intros H. destruct (rev w) as [|c t] eqn:E; auto.
  apply Ascii.eqb_neq. intros ->. apply H. apply in_rev. rewrite E. simpl; auto.
Qed.
Lemma ends_with_quote_snoc w : ends_with_quote (w ++ [QUOTE]) = true.
Proof. unfold ends_with_quote. rewrite rev_app_distr. reflexivity. Qed.

Lemma merge_addq ws acc rest : ws <> [] -> Forall word ws ->
  merge_quotes (Some acc) (addq ws ++ rest) =
  do m <- merge_quotes None rest; Ok ((acc ++ join ws) :: m).
Proof.
  intros Hn H. revert acc Hn. induction H as [|w r [Hw Hq] Hr IH]; [congruence|]. intros acc _.
  destruct r as [|w2 r].
  - cbn [addq app merge_quotes]. rewrite ends_with_quote_snoc, removelast_last. reflexivity.
  - change (addq (w :: w2 :: r)) with (w :: addq (w2 :: r)).
    cbn [app merge_quotes]. rewrite ends_with_quote_no by assumption.
    rewrite IH by congruence. rewrite join_cons2.
    replace ((acc ++ w ++ [SP]) ++ join (w2 :: r)) with (acc ++ w ++ SP :: join (w2 :: r)).
    + reflexivity.
    + rewrite <- !app_assoc. reflexivity.
Qed.

Lemma merge_quoted ws rest : ws <> [] -> Forall word ws ->
  merge_quotes None (quoted_tokens ws ++ rest) =
  do m <- merge_quotes None rest; Ok (join ws :: m).
Proof.
  intros Hn H. destruct ws as [|w [|w2 r]]; [congruence| |].
  - inversion H as [|? ? [Hw Hq] _]; subst. cbn [quoted_tokens app merge_quotes].
    replace (beq w Q1) with false; [reflexivity|].
    symmetry. apply beq_neq. intros ->. apply Hq. simpl; auto.
  - change (quoted_tokens (w :: w2 :: r)) with (Q1 :: addq (w :: w2 :: r)).
    rewrite <- app_comm_cons. cbn [merge_quotes]. rewrite beq_refl.
    rewrite merge_addq by (congruence || assumption). reflexivity.
Qed.

Lemma spaced_cons t ts : spaced (t :: ts) = SP :: t ++ spaced ts.
Proof. reflexivity. Qed.

Lemma words_spaced kw ts : token kw ->
  words (kw ++ spaced ts) = kw :: flat_map words ts.
Proof.
  intros Hk. destruct ts as [|t r].
  - simpl. rewrite app_nil_r. now apply words_tok.
  - rewrite spaced_cons, words_tok_sep by (assumption || reflexivity). f_equal.
    revert t. induction r as [|t2 r IH]; intros t.
    + simpl. now rewrite !app_nil_r.
    + rewrite spaced_cons, words_app_sep by reflexivity.
      change (flat_map words (t :: t2 :: r)) with (words t ++ flat_map words (t2 :: r)).
      now rewrite IH.
Qed.
Lemma plain_spaced ts : Forall plain ts -> plain (spaced ts).
Proof.
  induction 1 as [|t r Ht Hr IH]; [constructor|].
  rewrite spaced_cons. apply plain_cons; [reflexivity|]. now apply plain_app.
Qed.
Lemma split_spaced kw ts : token kw -> Forall plain ts ->
  string_split (kw ++ spaced ts) = kw :: flat_map words ts.
Proof.
  intros Hk H. rewrite string_split_plain.
  - now apply words_spaced.
  - apply plain_app; [now apply plain_token|now apply plain_spaced].
Qed.
Lemma flat_map_words_tokens ts : Forall token ts -> flat_map words ts = ts.
Proof.
  induction 1 as [|t r Ht Hr IH]; [reflexivity|]. simpl. rewrite words_tok, IH by assumption.
  reflexivity.
Qed.
Lemma split_spaced_tokens kw ts : token kw -> Forall token ts ->
  string_split (kw ++ spaced ts) = kw :: ts.
Proof.
  intros Hk H. rewrite split_spaced; auto.
  - now rewrite flat_map_words_tokens.
  - eapply Forall_impl; [|exact H]. intros a; apply plain_token.
Qed.

Lemma write_quoted_plain n : clean n -> plain (write_quoted n).
Proof.
  intros [ws [Hn [H ->]]]. rewrite write_quoted_join by assumption.
  apply plain_join, quoted_tokens_ok. now apply words_tokens_of.
Qed.

(** The line of quoted names written for a keyword splits back into the names. *)
Lemma split_quotes_names kw names : token kw -> kw <> Q1 -> Forall clean names ->
  split_quotes (kw ++ spaced (map write_quoted names)) = Ok (kw :: names).
Proof.
  intros Hk Hkq H. unfold split_quotes. rewrite split_spaced; auto.
  2:{ apply Forall_map. eapply Forall_impl; [|exact H]. intros a; apply write_quoted_plain. }
  cbn [merge_quotes]. rewrite (proj2 (beq_neq kw Q1)) by assumption.
  assert (E : merge_quotes None (flat_map words (map write_quoted names)) = Ok names).
  { induction H as [|n r [ws [Hn [Hw ->]]] Hr IH]; [reflexivity|].
    cbn [map flat_map]. rewrite write_quoted_join by assumption.
    rewrite words_join by (apply quoted_tokens_ok; now apply words_tokens_of).
    rewrite merge_quoted by assumption. rewrite IH. reflexivity. }
  rewrite E. reflexivity.
Qed.

(** ** Streams of known lines *)
Lemma scan_hit p pre l r : Forall (fun x => p x = false) pre -> p l = true ->
  scan p (pre ++ l :: r) = Some (l, r).
Proof.
  induction 1 as [|x t Hx Ht IH]; simpl; intros Hl; [now rewrite Hl|].
  rewrite Hx. auto.
Qed.
Lemma goto_keyword_hit kw pre l r b :
  Forall (fun x => starts_with x kw = false) pre -> starts_with l kw = true ->
  goto_keyword kw (mkStream (pre ++ l :: r) b) = Ok (l, mkStream r b).
Proof.
  intros H1 H2. unfold goto_keyword, goto_if. cbn [pending].
  rewrite (scan_hit (fun l => starts_with l kw)) by assumption. reflexivity.
Qed.
Lemma goto_keyword_next kw l r b : starts_with l kw = true ->
  goto_keyword kw (mkStream (l :: r) b) = Ok (l, mkStream r b).
Proof. intros H. now apply (goto_keyword_hit kw []). Qed.
Lemma goto_if_hit kw pre l r b :
  Forall (fun x => starts_with x kw = false) pre -> starts_with l kw = true ->
  goto_if kw (mkStream (pre ++ l :: r) b) = (Some l, mkStream r b).
Proof.
  intros H1 H2. unfold goto_if. cbn [pending].
  rewrite (scan_hit (fun l => starts_with l kw)) by assumption. reflexivity.
Qed.
Lemma goto_if_next kw l r b : starts_with l kw = true ->
  goto_if kw (mkStream (l :: r) b) = (Some l, mkStream r b).
Proof. intros H. now apply (goto_if_hit kw []). Qed.
Lemma scan_none p ls : Forall (fun x => p x = false) ls -> scan p ls = None.
Proof. induction 1 as [|x t Hx Ht IH]; simpl; auto. now rewrite Hx. Qed.
Lemma goto_if_none kw ls b : Forall (fun x => starts_with x kw = false) ls ->
  goto_if kw (mkStream ls b) = (None, mkStream ls b).
Proof. intros H. unfold goto_if. cbn [pending]. now rewrite scan_none. Qed.

(** ** HEADER *)
Lemma after_first_prefix p l : after_first p (p ++ l) = Some l.
Proof.
  destruct (p ++ l) as [|c t] eqn:E.
  - apply app_eq_nil in E as [-> ->]. reflexivity.
  - cbn [after_first]. rewrite <- E, starts_with_app. rewrite skipn_app, skipn_all, Nat.sub_diag.
    reflexivity.
Qed.

Lemma read_header_written name r b :
  read_header (mkStream (write_header name ++ r) b)
  = Ok (option_map normalise name, mkStream r b).
Proof.
  unfold read_header, write_header, check_keyword. cbn [app pending].
  replace (starts_with (lit "HEADER {") (lit "HEADER")) with true by reflexivity.
  cbn [bind pending]. destruct name as [n|]; cbn [app header_loop option_map].
  - replace (starts_with (lit "name:" ++ n) (lit "}")) with false by reflexivity.
    rewrite after_first_prefix.
    replace (starts_with (lit "}") (lit "}")) with true by reflexivity.
    reflexivity.
  - replace (starts_with (lit "}") (lit "}")) with true by reflexivity.
    reflexivity.
Qed.

(** ** CRS *)
Lemma read_CRS_default r b :
  read_CRS (mkStream (write_CRS default_crs ++ r) b) = Ok (default_crs, mkStream r b).
Proof. reflexivity. Qed.

(** ** Deciding [clean] on literals *)
Definition wordb (w : bytes) : bool := tokenb w && negb (existsb (Ascii.eqb QUOTE) w).
Lemma wordb_ok w : wordb w = true -> word w.
Proof.
  intros H. apply andb_true_iff in H as [H1 H2]. split; [now apply tokenb_ok|].
  intros Hi. apply negb_true_iff in H2. apply Bool.not_true_iff_false in H2. apply H2.
  apply existsb_exists. exists QUOTE. split; [assumption|apply Ascii.eqb_refl].
Qed.
Definition cleanb (n : bytes) : bool :=
  let ws := string_split n in
  match ws with [] => false | _ => forallb wordb ws && beq (join ws) n end.
Lemma cleanb_ok n : cleanb n = true -> clean n.
Proof.
  unfold cleanb. destruct (string_split n) as [|w r] eqn:E; [discriminate|].
  intros H. apply andb_true_iff in H as [H1 H2]. exists (w :: r). split; [discriminate|]. split.
  - rewrite forallb_forall in H1. apply Forall_forall. intros x Hx. apply wordb_ok. auto.
  - apply beq_eq in H2. congruence.
Qed.
Lemma cleanb_all ns : forallb cleanb ns = true -> Forall clean ns.
Proof. rewrite forallb_forall. intros H. apply Forall_forall. intros x Hx. apply cleanb_ok. auto. Qed.

(** ** When quotes are closed *)
Lemma ends_with_quote_closes t : ends_with_quote t = true <-> closes t.
Proof.
  unfold ends_with_quote, closes. split.
  - destruct (rev t) as [|c r] eqn:E; [discriminate|]. intros H. apply Ascii.eqb_eq in H; subst.
    exists (rev r). rewrite <- (rev_involutive t), E. reflexivity.
  - intros [p ->]. rewrite rev_app_distr. reflexivity.
Qed.
Lemma closes_dec t : {closes t} + {~ closes t}.
Proof.
  destruct (ends_with_quote t) eqn:E.
  - left. now apply ends_with_quote_closes.
  - right. intros H. apply ends_with_quote_closes in H. congruence.
Qed.
Lemma not_closes t : ~ closes t -> ends_with_quote t = false.
Proof.
  intros H. destruct (ends_with_quote t) eqn:E; auto. apply ends_with_quote_closes in E. contradiction.
Qed.
Lemma merge_body acc body t r : Forall (fun b => ~ closes b) body -> closes t ->
  exists s, merge_quotes (Some acc) (body ++ t :: r) = do m <- merge_quotes None r; Ok (s :: m).
Proof.
  intros H Ht. revert acc. induction H as [|b l Hb Hl IH]; intros acc.
  - exists (acc ++ removelast t). simpl. apply ends_with_quote_closes in Ht. now rewrite Ht.
  - cbn [app merge_quotes]. rewrite not_closes by assumption. apply IH.
Qed.
Lemma merge_unclosed acc body : Forall (fun b => ~ closes b) body -> merge_quotes (Some acc) body = UB.
Proof.
  intros H. revert acc. induction H as [|b l Hb Hl IH]; intros acc; [reflexivity|].
  cbn [merge_quotes]. rewrite not_closes by assumption. apply IH.
Qed.
Lemma balanced_ok ts : balanced ts -> exists m, merge_quotes None ts = Ok m.
Proof.
  induction 1 as [|t r Ht Hr [m IH]|body t r Hb Ht Hr [m IH]].
  - exists []. reflexivity.
  - exists (t :: m). cbn [merge_quotes]. rewrite (proj2 (beq_neq t Q1)) by assumption. now rewrite IH.
  - destruct (merge_body [] body t r Hb Ht) as [s E].
    rewrite IH in E. eexists. exact E.
Qed.
Lemma first_closing r : {body & {t & {r' | r = body ++ t :: r' /\ Forall (fun b => ~ closes b) body /\ closes t}}}
  + {Forall (fun b => ~ closes b) r}.
Proof.
  induction r as [|b r IH]; [right; constructor|].
  destruct (closes_dec b) as [Hc|Hc].
  - left. exists [], b, r. repeat split; auto.
  - destruct IH as [[body [t [r' [-> [H1 H2]]]]]|H].
    + left. exists (b :: body), t, r'. repeat split; auto.
    + right. constructor; auto.
Qed.
Lemma unbalanced_UB n ts : (List.length ts <= n)%nat -> balanced ts \/ merge_quotes None ts = UB.
Proof.
  revert ts; induction n as [|n IH]; intros ts Hl.
  - destruct ts; [left; constructor|simpl in Hl; lia].
  - destruct ts as [|t r]; [left; constructor|]. simpl in Hl.
    destruct (bytes_dec t Q1) as [->|Ht].
    + destruct (first_closing r) as [[body [t [r' [-> [H1 H2]]]]]|H].
      * destruct (IH r') as [Hb|Hb].
        { rewrite app_length in Hl. simpl in Hl. lia. }
        -- left. now apply bal_quote.
        -- right. destruct (merge_body [] body t r' H1 H2) as [s E].
           rewrite Hb in E. exact E.
      * right. exact (merge_unclosed [] r H).
    + destruct (IH r ltac:(lia)) as [Hb|Hb].
      * left. now apply bal_tok.
      * right. cbn [merge_quotes]. rewrite (proj2 (beq_neq t Q1)) by assumption. now rewrite Hb.
Qed.
Lemma split_quotes_balanced line :
  (balanced (string_split line) <-> exists tokens, split_quotes line = Ok tokens) /\
  (~ balanced (string_split line) <-> split_quotes line = UB).
Proof.
  unfold split_quotes. set (ts := string_split line).
  destruct (unbalanced_UB _ ts (le_n _)) as [H|H].
  - destruct (balanced_ok ts H) as [m E]. rewrite E. split; split; intros; eauto; try contradiction; discriminate.
  - split; split; intros Hx; auto.
    + apply balanced_ok; assumption.
    + destruct Hx as [m E]. congruence.
    + intros Hb. destruct (balanced_ok ts Hb). congruence.
Qed.
