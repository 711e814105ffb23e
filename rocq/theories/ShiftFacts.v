(** * Files that only differ by the numbering base (used for C06). *)
From Coq Require Import ZArith List Lia Bool Ascii String.
From Verif Require Import Base Text TextFacts GocadModel MeshModel TsModel Spec GocadFacts CrlfFacts TsFacts DepthFacts.
Import ListNotations.
Local Open Scope string_scope.
Local Open Scope list_scope.
Local Open Scope Z_scope.

(** ** Files with numbered rows *)
(** A line that mentions vertex numbers; the other words of the line are kept as they are.
    The boolean tells the P form of the keyword (PVRTX, PATOM). *)
Inductive row :=
| Vertex (p : bool) (n : Z) (rest : list bytes)
| Atom (p : bool) (n ref : Z) (rest : list bytes)
| Triangle (a b c : Z) (rest : list bytes)
| Stone (a : Z) (rest : list bytes)
| Border (x : bytes) (a b : Z) (rest : list bytes)
| Segment (a b : Z) (rest : list bytes).
Inductive item := Row (r : row) | Raw (l : bytes).

(** The words of a row when the numbers are shifted by [k]. *)
Definition row_words (k : Z) (r : row) : bytes * list bytes :=
  match r with
  | Vertex p n rest => (if p then lit "PVRTX" else lit "VRTX", show (n + k) :: rest)
  | Atom p n ref rest => (if p then lit "PATOM" else lit "ATOM", show (n + k) :: show (ref + k) :: rest)
  | Triangle a b c rest => (lit "TRGL", show (a + k) :: show (b + k) :: show (c + k) :: rest)
  | Stone a rest => (lit "BSTONE", show (a + k) :: rest)
  | Border x a b rest => (lit "BORDER", x :: show (a + k) :: show (b + k) :: rest)
  | Segment a b rest => (lit "SEG", show (a + k) :: show (b + k) :: rest)
  end.
Definition render (k : Z) (i : item) : bytes :=
  match i with
  | Row r => fst (row_words k r) ++ spaced (snd (row_words k r))
  | Raw l => l
  end.
Definition file_with_base (k : Z) (its : list item) : bytes := unlines (map (render k) its).

Definition row_numbers (r : row) : list Z :=
  match r with
  | Vertex _ n _ => [n]
  | Atom _ n ref _ => [n; ref]
  | Triangle a b c _ => [a; b; c]
  | Stone a _ => [a]
  | Border _ a b _ => [a; b]
  | Segment a b _ => [a; b]
  end.
Definition row_rest (r : row) : list bytes :=
  match r with
  | Vertex _ _ rest | Atom _ _ _ rest | Triangle _ _ _ rest | Stone _ rest | Segment _ _ rest => rest
  | Border x _ _ rest => x :: rest
  end.
Definition row_keywords : list bytes :=
  [lit "VRTX"; lit "PVRTX"; lit "ATOM"; lit "PATOM"; lit "TRGL"; lit "BSTONE"; lit "BORDER"; lit "SEG"].
(** Numbers stay 32 bits wide under the shift; the other words hold no colon and no quote. *)
Definition row_ok (k : Z) (r : row) : Prop :=
  Forall (fun n => 0 <= n + k < two32) (row_numbers r) /\
  Forall (fun w => token w /\ ~ In ":"%char w /\ ~ In QUOTE w) (row_rest r).
Definition raw_ok (l : bytes) : Prop :=
  is_line l /\ forall w r, string_split l = w :: r -> ~ In w row_keywords.
Definition item_ok (k : Z) (i : item) : Prop :=
  match i with Row r => row_ok k r | Raw l => raw_ok l end.

(** The first row that follows is a vertex. *)
Fixpoint vertex_first (its : list item) : Prop :=
  match its with
  | [] => True
  | Raw _ :: r => vertex_first r
  | Row (Vertex _ _ _) :: _ => True
  | Row _ :: _ => False
  end.
(** Every section that begins with a line [kw] declares a vertex before using one. *)
Fixpoint sections_ok (kw : bytes) (its : list item) : Prop :=
  match its with
  | [] => True
  | Raw l :: r => (starts_with l kw = true -> vertex_first r) /\ sections_ok kw r
  | Row _ :: r => sections_ok kw r
  end.

(** ** Reading rows *)
Lemma show_no_char z c : 0 <= z -> is_digit c = false -> ~ In c (show z).
Proof.
  intros Hz Hc Hi. pose proof (show_digits z Hz) as H. rewrite Forall_forall in H.
  apply H in Hi. congruence.
Qed.
Lemma row_tokens k r : row_ok k r -> Forall token (snd (row_words k r)).
Proof.
  intros [H1 H2].
  assert (H3 : Forall token (row_rest r)) by (eapply Forall_impl; [|exact H2]; intros w Hw; apply Hw).
  destruct r; cbn [row_words snd row_numbers row_rest] in *;
    repeat match goal with H : Forall _ (_ :: _) |- _ => inversion H; subst; clear H end;
    repeat (apply Forall_cons; [first [assumption|apply show_token; lia]|]); assumption.
Qed.
Lemma row_kw_token k r : token (fst (row_words k r)).
Proof. destruct r as [[]|[]| | | |]; apply tokenb_ok; reflexivity. Qed.
Lemma row_split k r : row_ok k r ->
  string_split (render k (Row r)) = fst (row_words k r) :: snd (row_words k r).
Proof. intros H. cbn [render]. apply split_spaced_tokens; [apply row_kw_token|now apply row_tokens]. Qed.
Lemma row_words_clean k r : row_ok k r ->
  Forall (fun w => ~ In ":"%char w /\ ~ In QUOTE w) (fst (row_words k r) :: snd (row_words k r)).
Proof.
  intros [H1 H2].
  assert (H3 : Forall (fun w => ~ In ":"%char w /\ ~ In QUOTE w) (row_rest r))
    by (eapply Forall_impl; [|exact H2]; intros w Hw; apply Hw).
  constructor.
  - destruct r as [[]|[]| | | |]; cbv; split; intros H;
      repeat (destruct H as [H|H]; [discriminate|]); exact H.
  - destruct r; cbn [row_words snd row_numbers row_rest] in *;
    repeat match goal with H : Forall _ (_ :: _) |- _ => inversion H; subst; clear H end;
    repeat (apply Forall_cons; [first [assumption|split; apply show_no_char; first [lia|reflexivity]]|]); assumption.
Qed.
Lemma In_spaced c ts : In c (spaced ts) -> c = SP \/ exists t, In t ts /\ In c t.
Proof.
  induction ts as [|t r IH]; [intros []|]. rewrite spaced_cons. intros [H|H]; [now left|].
  apply in_app_or in H as [H|H]; [right; exists t; split; [now left|assumption]|].
  destruct (IH H) as [->|[u [Hu Hc]]]; [now left|]. right. exists u. split; [now right|assumption].
Qed.
Lemma row_no_colon k r : row_ok k r -> ~ In ":"%char (render k (Row r)).
Proof.
  intros H Hi. pose proof (row_words_clean k r H) as Hw. inversion Hw as [|? ? H1 H2]; subst.
  cbn [render] in Hi. apply in_app_or in Hi as [Hi|Hi]; [destruct H1 as [H1 _]; exact (H1 Hi)|].
  apply In_spaced in Hi as [Hi|[t [Ht Hc]]]; [discriminate|].
  rewrite Forall_forall in H2. destruct (H2 t Ht) as [H3 _]. exact (H3 Hc).
Qed.
Lemma starts_with_In p l c : starts_with l p = true -> In c p -> In c l.
Proof.
  revert l. induction p as [|x p IH]; intros l H Hi; [destruct Hi|].
  destruct l as [|y l]; [discriminate|]. cbn [starts_with] in H. apply andb_true_iff in H as [E H].
  apply Ascii.eqb_eq in E. subst y. destruct Hi as [->|Hi]; [now left|right; now apply IH].
Qed.
Lemma after_first_none p l c : In c p -> ~ In c l -> after_first p l = None.
Proof.
  intros Hp. induction l as [|x l IH]; intros Hl; cbn [after_first].
  - destruct (starts_with [] p) eqn:E; [|reflexivity]. now destruct (starts_with_In p [] c E Hp).
  - destruct (starts_with (x :: l) p) eqn:E; [now destruct (Hl (starts_with_In p _ c E Hp))|].
    apply IH. intros H. apply Hl. now right.
Qed.
Lemma merge_no_quote ts : Forall (fun t => t <> Q1) ts -> merge_quotes None ts = Ok ts.
Proof.
  induction 1 as [|t r H1 H2 IH]; [reflexivity|]. cbn [merge_quotes].
  rewrite (proj2 (beq_neq t Q1)) by assumption. now rewrite IH.
Qed.
Lemma row_split_quotes k r : row_ok k r ->
  split_quotes (render k (Row r)) = Ok (fst (row_words k r) :: snd (row_words k r)).
Proof.
  intros H. unfold split_quotes. rewrite row_split by assumption. apply merge_no_quote.
  eapply Forall_impl; [|apply row_words_clean, H]. intros w [_ Hw] ->. apply Hw. now left.
Qed.
Lemma row_crs k r c : row_ok k r -> crs_line c (render k (Row r)) = Ok c.
Proof.
  intros H. unfold crs_line. rewrite row_split_quotes by assumption. cbn [bind idx nth_error].
  destruct r as [[]|[]| | | |]; reflexivity.
Qed.
(** Keywords no row starts with. *)
Definition not_row (kw : bytes) : Prop := forall k r, starts_with (render k (Row r)) kw = false.
Ltac notrow := intros ? [[]|[]| | | |]; reflexivity.
Lemma render_line k i : item_ok k i -> is_line (render k i).
Proof.
  destruct i as [r|l]; [|intros H; apply H]. intros H. cbn [render].
  apply is_line_app; [apply token_line, row_kw_token|]. pose proof (row_tokens k r H) as Ht.
  revert Ht. generalize (snd (row_words k r)). clear H. induction 1 as [|t ts H1 H2 IH]; [intros []|].
  rewrite spaced_cons. apply is_line_cons; [discriminate|]. apply is_line_app; [now apply token_line|assumption].
Qed.

Section Shift.
Context (k k' : Z) (skw : bytes).
Definition good (its : list item) : Prop :=
  Forall (item_ok k) its /\ Forall (item_ok k') its /\ sections_ok skw its.
Lemma good_tl i r : good (i :: r) -> good r.
Proof.
  intros [H1 [H2 H3]]. inversion H1; inversion H2; subst. split; [assumption|]. split; [assumption|].
  destruct i; apply H3.
Qed.
(** Two streams at the same place of the two files. *)
Definition Ls (ls ls' : list bytes) : Prop :=
  exists its, good its /\ ls = map (render k) its /\ ls' = map (render k') its.
Definition Ss (s s' : istream) : Prop := Ls (pending s) (pending s') /\ nl s = nl s'.
Definition Lv {A} (x y : A * list bytes) : Prop := fst x = fst y /\ Ls (snd x) (snd y).
Definition Sv {A} (x y : A * istream) : Prop := fst x = fst y /\ Ss (snd x) (snd y).

Lemma Ls_ind (P : list bytes -> list bytes -> Prop) :
  P [] [] ->
  (forall i r, good (i :: r) -> P (map (render k) r) (map (render k') r) ->
     P (render k i :: map (render k) r) (render k' i :: map (render k') r)) ->
  forall ls ls', Ls ls ls' -> P ls ls'.
Proof.
  intros H0 H1 ls ls' [its [Hg [-> ->]]]. induction its as [|i r IH]; [exact H0|].
  cbn [map]. apply H1; [assumption|]. apply IH. now apply good_tl in Hg.
Qed.
Lemma Ls_good its : good its -> Ls (map (render k) its) (map (render k') its).
Proof. intros H. now exists its. Qed.

(** The line found by [goto_if] is the same in both files, and is raw. *)
Definition same_raw (l l' : bytes) : Prop := l = l' /\ raw_ok l.
Lemma S_scan kw ls ls' : not_row kw -> Ls ls ls' ->
  match scan (fun l => starts_with l kw) ls, scan (fun l => starts_with l kw) ls' with
  | Some (l, r), Some (l', r') => l = l' /\ Ls r r' /\
      exists its, good (Raw l :: its) /\ starts_with l kw = true /\ r = map (render k) its /\ r' = map (render k') its
  | None, None => True
  | _, _ => False
  end.
Proof.
  intros Hn. revert ls ls'. apply Ls_ind; [exact I|]. intros i r Hg IH. cbn [scan].
  destruct i as [x|l]; [now rewrite !Hn|]. cbn [render].
  destruct (starts_with l kw) eqn:E; [|exact IH].
  split; [reflexivity|]. split; [apply Ls_good; now apply good_tl in Hg|].
  exists r. now repeat split; try apply Hg.
Qed.
Lemma S_goto_if kw s s' : not_row kw -> Ss s s' ->
  match goto_if kw s, goto_if kw s' with
  | (Some l, t), (Some l', t') => l = l' /\ Ss t t' /\
      exists its, good (Raw l :: its) /\ starts_with l kw = true /\ pending t = map (render k) its /\ pending t' = map (render k') its
  | (None, t), (None, t') => Ss t t'
  | _, _ => False
  end.
Proof.
  intros Hn [H1 H2]. unfold goto_if. pose proof (S_scan kw _ _ Hn H1) as E.
  destruct (scan _ (pending s)) as [[l r]|], (scan _ (pending s')) as [[l' r']|]; try contradiction.
  - destruct E as [E1 [E2 E3]]. split; [assumption|]. split; [split; assumption|exact E3].
  - split; assumption.
Qed.
Lemma S_goto_keyword kw s s' : not_row kw -> Ss s s' ->
  res_rel (fun x y => fst x = fst y /\ Ss (snd x) (snd y) /\
      exists its, good (Raw (fst x) :: its) /\ starts_with (fst x) kw = true /\
                  pending (snd x) = map (render k) its /\ pending (snd y) = map (render k') its)
    (goto_keyword kw s) (goto_keyword kw s').
Proof.
  intros Hn H. unfold goto_keyword. pose proof (S_goto_if kw s s' Hn H) as E.
  destruct (goto_if kw s) as [[l|] t], (goto_if kw s') as [[l'|] t']; try contradiction; simpl; auto.
Qed.
Lemma S_next_if kw s s' : not_row kw -> Ss s s' ->
  match next_if kw s, next_if kw s' with
  | (Some l, t), (Some l', t') => l = l' /\ Ss t t'
  | (None, t), (None, t') => Ss t t'
  | _, _ => False
  end.
Proof.
  intros Hn [H1 H2]. unfold next_if. destruct H1 as [its [Hg [E1 E2]]]. rewrite E1, E2.
  destruct its as [|i r]; [split; [|reflexivity]; exists []; now split|]. cbn [map].
  destruct i as [x|l].
  - rewrite !Hn. split; [|assumption]. rewrite E1, E2. now apply Ls_good.
  - cbn [render]. destruct (starts_with l kw).
    + split; [reflexivity|]. split; [|assumption]. cbn [pending]. apply Ls_good. now apply good_tl in Hg.
    + split; [|assumption]. rewrite E1, E2. now apply Ls_good.
Qed.
Lemma S_check_keyword kw s s' : not_row kw -> Ss s s' -> res_rel Ss (check_keyword kw s) (check_keyword kw s').
Proof.
  intros Hn [H1 H2]. unfold check_keyword. destruct H1 as [its [Hg [E1 E2]]]. rewrite E1, E2.
  destruct its as [|i r]; [reflexivity|]. cbn [map]. destruct i as [x|l]; [now rewrite !Hn|].
  cbn [render]. destruct (starts_with l kw); [|reflexivity]. split; [|assumption]. cbn [pending].
  apply Ls_good. now apply good_tl in Hg.
Qed.
Lemma S_header_loop n ls ls' : Ls ls ls' -> res_rel Lv (header_loop n ls) (header_loop n ls').
Proof.
  intros H. revert n. revert ls ls' H.
  apply (Ls_ind (fun ls ls' => forall n, res_rel Lv (header_loop n ls) (header_loop n ls'))); [reflexivity|].
  intros i r Hg IH n. cbn [header_loop]. pose proof Hg as [Ha [Hb _]]. inversion Ha; inversion Hb; subst.
  destruct i as [x|l].
  - assert (Hn : not_row (lit "}")) by notrow. rewrite !Hn.
    rewrite !(after_first_none (lit "name:") _ ":"%char) by (now apply row_no_colon || (cbv; auto 6)). apply IH.
  - cbn [render]. destruct (starts_with l _); [split; [reflexivity|]; apply Ls_good; now apply good_tl in Hg|].
    destruct (after_first _ l); apply IH.
Qed.
Lemma S_read_header s s' : Ss s s' -> res_rel Sv (read_header s) (read_header s').
Proof.
  intros H. unfold read_header. eapply res_rel_bind; [apply S_check_keyword; [notrow|exact H]|].
  intros t t' [Ht1 Ht2]. eapply res_rel_bind; [apply S_header_loop; exact Ht1|].
  intros [a r] [a' r'] [E1 E2]. split; [assumption|split; assumption].
Qed.
Lemma S_crs_loop c ls ls' : Ls ls ls' -> res_rel Lv (crs_loop c ls) (crs_loop c ls').
Proof.
  intros H. revert c. revert ls ls' H.
  apply (Ls_ind (fun ls ls' => forall c, res_rel Lv (crs_loop c ls) (crs_loop c ls'))); [reflexivity|].
  intros i r Hg IH c. cbn [crs_loop]. pose proof Hg as [Ha [Hb _]]. inversion Ha; inversion Hb; subst.
  destruct i as [x|l].
  - assert (Hn : not_row (lit "END_ORIGINAL_COORDINATE_SYSTEM")) by notrow. rewrite !Hn.
    rewrite !row_crs by assumption. apply IH.
  - cbn [render]. destruct (starts_with l _); [split; [reflexivity|]; apply Ls_good; now apply good_tl in Hg|].
    eapply res_rel_bind; [apply res_rel_refl with (P := eq); reflexivity|]. intros c1 ? <-. apply IH.
Qed.
Lemma S_read_CRS s s' : Ss s s' -> res_rel Sv (read_CRS s) (read_CRS s').
Proof.
  intros H. unfold read_CRS.
  pose proof (S_next_if (lit "GOCAD_ORIGINAL_COORDINATE_SYSTEM") s s' ltac:(notrow) H) as E.
  destruct (next_if _ s) as [[l|] t], (next_if _ s') as [[l'|] t']; try contradiction.
  - destruct E as [_ [E1 E2]]. eapply res_rel_bind; [apply S_crs_loop; exact E1|].
    intros [a r] [a' r'] [E3 E4]. split; [assumption|split; assumption].
  - split; auto.
Qed.
Lemma S_kw_line {A} (f : bytes -> res A) kw s s' : not_row kw -> Ss s s' ->
  res_rel Sv (do '(line, s1) <- goto_keyword kw s; do d <- f line; Ok (d, s1))
             (do '(line, s1) <- goto_keyword kw s'; do d <- f line; Ok (d, s1)).
Proof.
  intros Hn H. eapply res_rel_bind; [apply S_goto_keyword; eassumption|].
  intros [l t] [l' t'] [E1 [E2 _]]. cbn [fst snd] in *. subst l'.
  eapply res_rel_bind; [apply res_rel_refl with (P := eq); reflexivity|]. intros c1 ? <-. split; auto.
Qed.
Lemma S_kw_one_string kw n s s' : not_row kw -> Ss s s' ->
  res_rel Sv (kw_one_string kw n s) (kw_one_string kw n s').
Proof.
  intros Hn H. unfold kw_one_string. eapply res_rel_bind; [apply S_goto_keyword; eassumption|].
  intros [l t] [l' t'] [E1 [E2 _]]. cbn [fst snd] in *. subst l'.
  do 2 (eapply res_rel_bind; [apply res_rel_refl with (P := eq); reflexivity|]; intros ? ? <-). split; auto.
Qed.
Ltac step H := eapply res_rel_bind; [apply H; [notrow|eassumption]|];
  let a := fresh "v" in let t := fresh "t" in let a' := fresh "w" in let t' := fresh "t" in
  let E := fresh "E" in
  intros [a t] [a' t'] [E ?]; cbn [fst snd] in *; subst a'.
Lemma S_kw_two_strings kw n s s' : not_row kw -> Ss s s' ->
  res_rel Sv (kw_two_strings kw n s) (kw_two_strings kw n s').
Proof. intros Hn H. unfold kw_two_strings. now apply S_kw_line. Qed.
Lemma S_kw_one_double F kw n s s' : not_row kw -> Ss s s' ->
  res_rel Sv (kw_one_double F kw n s) (kw_one_double F kw n s').
Proof. intros Hn H. unfold kw_one_double. now apply S_kw_line. Qed.
Lemma S_kw_one_index kw n s s' : not_row kw -> Ss s s' ->
  res_rel Sv (kw_one_index kw n s) (kw_one_index kw n s').
Proof. intros Hn H. unfold kw_one_index. now apply S_kw_line. Qed.
Lemma S_read_prop_header F s s' : Ss s s' ->
  res_rel Sv (read_prop_header F [] s) (read_prop_header F [] s').
Proof.
  intros H. unfold read_prop_header.
  pose proof (S_next_if ([] ++ lit "PROPERTIES") s s' ltac:(notrow) H) as E.
  destruct (next_if _ s) as [[l|] t], (next_if _ s') as [[l'|] t']; try contradiction.
  2:{ split; auto. }
  destruct E as [<- E2].
  eapply res_rel_bind; [apply res_rel_refl with (P := eq); reflexivity|]. intros sl ? <-.
  cbn zeta. destruct (Nat.eqb _ 0); [split; auto|].
  eapply res_rel_bind; [apply res_rel_refl with (P := eq); reflexivity|]. intros names ? <-.
  step S_kw_two_strings. step S_kw_one_double. step S_kw_one_string. step S_kw_one_string.
  step S_kw_two_strings. step S_kw_one_index. step S_kw_one_string.
  split; auto.
Qed.

(** ** Data sections *)
Lemma sub_shift a o : 0 <= a + k < two32 -> 0 <= a + k' < two32 ->
  sub32 (a + k) (o + k) = sub32 (a + k') (o + k').
Proof. intros _ _. unfold sub32. f_equal. lia. Qed.
Lemma tok_index_shift a b o tk tk' i :
  idx tk i = Ok (show (a + k)) -> idx tk' i = Ok (show (a + k')) ->
  0 <= a + k < two32 -> 0 <= a + k' < two32 -> b = sub32 (a + k) (o + k) ->
  tok_index (o + k) tk i = Ok b /\ tok_index (o + k') tk' i = Ok b.
Proof.
  intros E1 E2 H1 H2 ->. unfold tok_index. rewrite E1, E2. cbn [bind].
  rewrite !string_to_index_show by assumption. cbn [bind]. split; [reflexivity|]. now rewrite (sub_shift a o).
Qed.
Ltac inv_row H := unfold row_ok in H; cbn [row_numbers row_rest] in H; destruct H as [? ?];
  repeat match goal with H : Forall _ (_ :: _) |- _ => inversion H; subst; clear H end.
Ltac kwtest := repeat match goal with
  |- context [beq (lit ?a) (lit ?b)] =>
     let x := eval vm_compute in (beq (lit a) (lit b)) in change (beq (lit a) (lit b)) with x
  end.

Section Num.
Context (F : Num).
(** Same data; nothing read yet, or the base seen in both files differs by the shift. *)
Definition Rts (its : list item) (ts ts' : TSurf F) : Prop :=
  (t_points ts = [] /\ ts = ts' /\ vertex_first its) \/
  (t_points ts <> [] /\ exists o, t_offset ts = o + k /\
     ts' = mkTSurf (o + k') (t_name ts) (t_crs ts) (t_props ts) (t_points ts) (t_triangles ts)
             (t_tri_off ts) (t_vert_off ts) (t_bstones ts) (t_borders ts) (t_values ts)).
Definition same_ts (ts ts' : TSurf F) : Prop :=
  t_name ts = t_name ts' /\ t_props ts = t_props ts' /\ t_points ts = t_points ts' /\
  t_triangles ts = t_triangles ts' /\ t_values ts = t_values ts'.
Definition Rline i its (x y : TSurf F * bool) : Prop :=
  Rts its (fst x) (fst y) /\ snd x = snd y /\ (snd x = true -> exists l, i = Raw l).

(** The words before the position read do not matter. *)
Lemma idx_prefix (pre pre' rest : list bytes) pos : List.length pre = List.length pre' ->
  (List.length pre <= pos)%nat -> idx (pre ++ rest) pos = idx (pre' ++ rest) pos.
Proof.
  intros H1 H2. unfold idx. rewrite !nth_error_app2 by lia. now rewrite H1.
Qed.
Lemma items_prefix (pre pre' rest : list bytes) m pos : List.length pre = List.length pre' ->
  (List.length pre <= pos)%nat ->
  read_items F (pre ++ rest) m pos = read_items F (pre' ++ rest) m pos /\
  forall x, read_items F (pre' ++ rest) m pos = Ok x -> (pos <= snd x)%nat.
Proof.
  intros Hl. revert pos. induction m as [|m IHm]; intros pos Hp.
  - cbn [read_items]. split; [reflexivity|]. intros y Hy. injection Hy as <-. cbn. lia.
  - cbn [read_items]. destruct (IHm (S pos) ltac:(lia)) as [Ea Eb].
    rewrite (idx_prefix pre pre') by assumption. rewrite Ea, !app_length, Hl. split; [reflexivity|]. intros y Hy.
    apply bind_ok in Hy as [? [_ Hy]]. apply bind_ok in Hy as [? [_ Hy]].
    apply bind_ok in Hy as [? [_ Hy]]. apply bind_ok in Hy as [[vs p'] [Hx Hy]].
    injection Hy as <-. apply Eb in Hx. cbn in *. lia.
Qed.
Lemma props_prefix (pre pre' rest : list bytes) nm es vl pos : List.length pre = List.length pre' ->
  (List.length pre <= pos)%nat ->
  read_properties F nm es vl (pre ++ rest) pos = read_properties F nm es vl (pre' ++ rest) pos.
Proof.
  intros Hl. revert pos es vl. induction nm as [|x nm IH]; intros pos es vl Hp; [reflexivity|].
  cbn [read_properties]. destruct es as [|e es]; [reflexivity|]. destruct vl as [|v vl]; [reflexivity|].
  destruct (items_prefix pre pre' rest (items e) pos Hl Hp) as [E3 E4].
  rewrite E3. apply bind_ext. intros [its p'] Hx. apply E4 in Hx. cbn in Hx.
  rewrite IH by lia. reflexivity.
Qed.

(** A vertex row behaves the same up to its own number. *)
Lemma tface_vertex b0 n rest ts kk : row_ok kk (Vertex b0 n rest) ->
  tface_line F ts (render kk (Row (Vertex b0 n rest))) =
  let tk := lit "VRTX" :: lit "1" :: rest in
  do p <- vrtx_point F (t_crs ts) tk;
  do vals' <- read_properties F (p_names (t_props ts)) (p_esizes (t_props ts)) (t_values ts) tk 5;
  Ok (mkTSurf (match t_points ts with [] => n + kk | _ => t_offset ts end) (t_name ts) (t_crs ts) (t_props ts)
        (t_points ts ++ [p]) (t_triangles ts)
        (t_tri_off ts) (t_vert_off ts) (t_bstones ts) (t_borders ts) vals', false).
Proof.
  intros H. unfold tface_line. rewrite row_split by assumption. inv_row H.
  cbn [row_words fst snd front bind]. destruct ts as [off name crs props pts tris tro vo bst bor vals].
  cbn [t_offset t_name t_crs t_props t_points t_triangles t_tri_off t_vert_off t_bstones t_borders t_values].
  replace (is_vrtx (if b0 then lit "PVRTX" else lit "VRTX")) with true by (destruct b0; reflexivity).
  assert (E : vrtx_offset (match pts with [] => true | _ => false end) off
           ((if b0 then lit "PVRTX" else lit "VRTX") :: show (n + kk) :: rest)
           = Ok (match pts with [] => n + kk | _ => off end)).
  { unfold vrtx_offset. destruct pts; [|reflexivity]. cbn [idx nth_error bind].
    now apply string_to_index_show. }
  rewrite E. cbn [bind].
  assert (E1 : forall a b c d, vrtx_point F crs (a :: b :: rest) = vrtx_point F crs (c :: d :: rest)) by reflexivity.
  rewrite (E1 _ _ (lit "VRTX") (lit "1")). cbn zeta. apply bind_ext. intros p _.
  pose proof (props_prefix [if b0 then lit "PVRTX" else lit "VRTX"; show (n + kk)]
    [lit "VRTX"; lit "1"] rest (p_names props) (p_esizes props) vals 5 eq_refl ltac:(cbn; lia)) as E2.
  cbn [app] in E2. rewrite E2. reflexivity.
Qed.
(** The other rows only use differences of numbers. *)
Lemma tface_row r ts o kk : (kk = k \/ kk = k') -> row_ok kk r ->
  (forall p n rest, r <> Vertex p n rest) ->
  t_offset ts = o + kk -> t_points ts <> [] ->
  tface_line F ts (render kk (Row r)) =
  rmap (fun x : TSurf F * bool => (mkTSurf (o + kk) (t_name (fst x)) (t_crs (fst x)) (t_props (fst x)) (t_points (fst x))
      (t_triangles (fst x)) (t_tri_off (fst x)) (t_vert_off (fst x)) (t_bstones (fst x)) (t_borders (fst x)) (t_values (fst x)), snd x))
  (match r with
   | Vertex _ _ _ => UB
   | Atom _ _ ref rest =>
      do p <- atz (t_points ts) (wrap32 (ref - o));
      do vals' <- read_properties F (p_names (t_props ts)) (p_esizes (t_props ts)) (t_values ts)
                    ([[]; []; []] ++ rest) 3;
      Ok (mkTSurf 0 (t_name ts) (t_crs ts) (t_props ts) (t_points ts ++ [p]) (t_triangles ts)
        (t_tri_off ts) (t_vert_off ts) (t_bstones ts) (t_borders ts) vals', false)
   | Triangle a b c _ =>
      Ok (mkTSurf 0 (t_name ts) (t_crs ts) (t_props ts) (t_points ts)
           (t_triangles ts ++ [(wrap32 (a - o), wrap32 (b - o), wrap32 (c - o))])
        (t_tri_off ts) (t_vert_off ts) (t_bstones ts) (t_borders ts) (t_values ts), false)
   | Stone a _ =>
      Ok (mkTSurf 0 (t_name ts) (t_crs ts) (t_props ts) (t_points ts) (t_triangles ts)
        (t_tri_off ts) (t_vert_off ts) (t_bstones ts ++ [wrap32 (a - o)]) (t_borders ts) (t_values ts), false)
   | Border _ a b _ =>
      Ok (mkTSurf 0 (t_name ts) (t_crs ts) (t_props ts) (t_points ts) (t_triangles ts)
        (t_tri_off ts) (t_vert_off ts) (t_bstones ts) (t_borders ts ++ [(wrap32 (a - o), wrap32 (b - o))])
        (t_values ts), false)
   | Segment _ _ _ =>
      Ok (mkTSurf 0 (t_name ts) (t_crs ts) (t_props ts) (t_points ts) (t_triangles ts)
        (t_tri_off ts) (t_vert_off ts) (t_bstones ts) (t_borders ts) (t_values ts), false)
   end).
Proof.
  intros Hk H Hv Ho Hp. unfold tface_line. rewrite row_split by assumption.
  destruct ts as [off name crs props pts tris tro vo bst bor vals].
  cbn [t_offset t_name t_crs t_props t_points t_triangles t_tri_off t_vert_off t_bstones t_borders t_values] in *.
  subst off.
  assert (Ht : forall a, tok_index (o + kk) [show (a + kk)] 0 = Ok (wrap32 (a - o)) \/ ~ (0 <= a + kk < two32)).
  { intros a. destruct (Z_le_dec 0 (a + kk)); [|right; lia]. destruct (Z_lt_dec (a + kk) two32); [|right; lia].
    left. unfold tok_index. cbn [idx nth_error bind]. rewrite string_to_index_show by lia. cbn [bind].
    unfold sub32. do 2 f_equal. lia. }
  assert (Hx : forall a tk i, 0 <= a + kk < two32 -> nth_error tk i = Some (show (a + kk)) ->
     tok_index (o + kk) tk i = Ok (wrap32 (a - o))).
  { intros a tk i Ha Hi. unfold tok_index, idx. rewrite Hi. cbn [bind].
    rewrite string_to_index_show by lia. cbn [bind]. unfold sub32. do 2 f_equal. lia. }
  clear Ht. destruct r as [p0 n rest|p0 n ref rest|a b c rest|a rest|x a b rest|a b rest].
  - now destruct (Hv p0 n rest).
  - inv_row H. cbn [row_words fst snd front bind].
    replace (is_vrtx (if p0 then lit "PATOM" else lit "ATOM")) with false by (destruct p0; reflexivity).
    replace (is_atom (if p0 then lit "PATOM" else lit "ATOM")) with true by (destruct p0; reflexivity).
    rewrite (Hx ref) by (assumption || reflexivity). cbn [bind].
    rewrite rmap_bind. apply bind_ext. intros q _.
    pose proof (props_prefix [if p0 then lit "PATOM" else lit "ATOM"; show (n + kk); show (ref + kk)]
      [[]; []; []] rest (p_names props) (p_esizes props) vals 3 eq_refl ltac:(cbn; lia)) as E2.
    cbn [app] in E2 |- *. rewrite E2. rewrite rmap_bind. reflexivity.
  - inv_row H. cbn [row_words fst snd front bind].
    change (is_vrtx (lit "TRGL")) with false. change (is_atom (lit "TRGL")) with false.
    change (beq (lit "TRGL") (lit "TRGL")) with true. cbv iota.
    rewrite (Hx a), (Hx b), (Hx c) by (assumption || reflexivity). reflexivity.
  - inv_row H. cbn [row_words fst snd front bind].
    change (is_vrtx (lit "BSTONE")) with false. change (is_atom (lit "BSTONE")) with false.
    change (beq (lit "BSTONE") (lit "TRGL")) with false. change (beq (lit "BSTONE") (lit "BSTONE")) with true. cbv iota.
    rewrite (Hx a) by (assumption || reflexivity). reflexivity.
  - inv_row H. cbn [row_words fst snd front bind].
    change (is_vrtx (lit "BORDER")) with false. change (is_atom (lit "BORDER")) with false.
    change (beq (lit "BORDER") (lit "TRGL")) with false. change (beq (lit "BORDER") (lit "BSTONE")) with false.
    change (beq (lit "BORDER") (lit "BORDER")) with true. cbv iota.
    rewrite (Hx a), (Hx b) by (assumption || reflexivity). reflexivity.
  - inv_row H. cbn [row_words fst snd front bind]. reflexivity.
Qed.
(** Raw lines never touch the base. *)
Lemma tface_raw l ts o : raw_ok l ->
  tface_line F (mkTSurf o (t_name ts) (t_crs ts) (t_props ts) (t_points ts) (t_triangles ts)
        (t_tri_off ts) (t_vert_off ts) (t_bstones ts) (t_borders ts) (t_values ts)) l =
  rmap (fun x : TSurf F * bool => (mkTSurf o (t_name (fst x)) (t_crs (fst x)) (t_props (fst x)) (t_points (fst x))
      (t_triangles (fst x)) (t_tri_off (fst x)) (t_vert_off (fst x)) (t_bstones (fst x)) (t_borders (fst x)) (t_values (fst x)), snd x))
    (tface_line F ts l) /\
  (forall x, tface_line F ts l = Ok x -> t_points (fst x) = t_points ts /\ t_offset (fst x) = t_offset ts).
Proof.
  intros [_ Hr]. unfold tface_line. destruct (string_split l) as [|w tk]; [now split|].
  specialize (Hr w tk eq_refl). cbn [front bind].
  assert (Hb : forall kw, In kw row_keywords -> beq w kw = false).
  { intros kw Hi. apply beq_neq. intros ->. now apply Hr. }
  unfold is_vrtx, is_atom.
  rewrite (Hb (lit "VRTX")), (Hb (lit "PVRTX")), (Hb (lit "ATOM")), (Hb (lit "PATOM")), (Hb (lit "TRGL")),
    (Hb (lit "BSTONE")), (Hb (lit "BORDER")) by (cbn; tauto). cbn [orb].
  destruct ts as [off name crs props pts tris tro vo bst bor vals].
  cbn [t_offset t_name t_crs t_props t_points t_triangles t_tri_off t_vert_off t_bstones t_borders t_values] in *.
  destruct (beq w "TFACE"); [split; [reflexivity|]; intros x Hx; now injection Hx as <-|].
  destruct (beq w "END"); [split; [reflexivity|]; intros x Hx; now injection Hx as <-|].
  split; [reflexivity|]. intros x Hx; now injection Hx as <-.
Qed.
Lemma S_tfaces_loop its ts ts' : good its -> Rts its ts ts' ->
  res_rel (fun x y => same_ts (fst x) (fst y) /\ Ls (snd x) (snd y))
    (tfaces_loop F ts (map (render k) its)) (tfaces_loop F ts' (map (render k') its)).
Proof.
  intros Hg. revert ts ts'. induction its as [|i its IH]; intros ts ts' HR; [reflexivity|].
  pose proof Hg as [Ha [Hb _]]. inversion Ha; inversion Hb; subst. specialize (IH (good_tl _ _ Hg)).
  cbn [map tfaces_loop].
  apply res_rel_bind with (P := fun x y : TSurf F * bool => (snd x = false /\ Rts its (fst x) (fst y) \/ snd x = true /\ same_ts (fst x) (fst y)) /\ snd x = snd y).
  2:{ intros [a st] [b st'] [HA HB]. cbn [fst snd] in *. subst st'.
      destruct st.
      - destruct HA as [[? _]|[_ HA]]; [discriminate|]. split; [assumption|]. cbn [snd].
        apply Ls_good. now apply good_tl in Hg.
      - destruct HA as [[_ HA]|[? _]]; [|discriminate]. now apply IH. }
  destruct i as [r|l].
  - destruct HR as [[Hp [<- Hv]]|[Hp [o [Ho ->]]]].
    + destruct r as [b0 n rest| | | | |]; try contradiction.
      rewrite !tface_vertex by assumption. cbn zeta. rewrite Hp.
      eapply res_rel_bind; [apply res_rel_refl with (P := eq); reflexivity|]. intros p ? <-.
      eapply res_rel_bind; [apply res_rel_refl with (P := eq); reflexivity|]. intros v ? <-.
      split; [|reflexivity]. left. split; [reflexivity|]. right. cbn [fst t_points app].
      split; [discriminate|]. exists n. now split.
    + destruct r as [b0 n rest|p0 n ref rest|a b c rest|a rest|x a b rest|a b rest].
      1:{ rewrite !tface_vertex by assumption. cbn zeta.
        cbn [t_offset t_name t_crs t_props t_points t_triangles t_tri_off t_vert_off t_bstones t_borders t_values].
        eapply res_rel_bind; [apply res_rel_refl with (P := eq); reflexivity|]. intros p ? <-.
        eapply res_rel_bind; [apply res_rel_refl with (P := eq); reflexivity|]. intros v ? <-.
        split; [|reflexivity]. left. split; [reflexivity|]. right. cbn [fst t_points app].
        destruct (t_points ts) as [|p0 ps] eqn:E; [contradiction|]. split; [discriminate|]. exists o.
        cbn [t_offset t_name t_crs t_props t_points t_triangles t_tri_off t_vert_off t_bstones t_borders t_values].
        now split. }
      all: rewrite (tface_row _ ts o k) by (auto; discriminate);
        rewrite (tface_row _ _ o k') by (auto; discriminate);
        cbn [t_offset t_name t_crs t_props t_points t_triangles t_tri_off t_vert_off t_bstones t_borders t_values].
      all: rewrite ?rmap_bind.
      1:{ eapply res_rel_bind; [apply res_rel_refl with (P := eq); reflexivity|]. intros q ? <-. rewrite ?rmap_bind.
          eapply res_rel_bind; [apply res_rel_refl with (P := eq); reflexivity|]. intros v ? <-.
          split; [|reflexivity]. left. split; [reflexivity|]. right. cbn [fst t_points app].
          split; [destruct (t_points ts); discriminate|]. exists o. now split. }
      all: split; [|reflexivity]; left; split; [reflexivity|]; right; split; [assumption|]; exists o; now split.
  - cbn [render]. destruct HR as [[Hp [<- Hv]]|[Hp [o [Ho ->]]]].
    + assert (E : forall x, tface_line F ts l = Ok x -> t_points (fst x) = t_points ts)
        by (intros x Hx; now apply (tface_raw l ts 0)).
      destruct (tface_line F ts l) as [[a st]| | |]; simpl; auto. split; [|reflexivity].
      specialize (E _ eq_refl). cbn [fst] in E. destruct st.
      * right. split; [reflexivity|]. now repeat split.
      * left. split; [reflexivity|]. left. rewrite E. now repeat split.
    + destruct (tface_raw l ts (o + k') ltac:(assumption)) as [E1 E2]. rewrite E1.
      destruct (tface_line F ts l) as [[a st]| | |]; simpl; auto. split; [|reflexivity].
      specialize (E2 _ eq_refl) as [E2 E3]. cbn [fst] in *. destruct st.
      * right. split; [reflexivity|]. now repeat split.
      * left. split; [reflexivity|]. right. rewrite E2. split; [assumption|]. exists o. rewrite E3. now split.
Qed.

(** ** Objects and files *)
Ltac step0 H := eapply res_rel_bind; [apply H; eassumption|];
  let a := fresh "v" in let t := fresh "t" in let a' := fresh "w" in let t' := fresh "t" in
  let E := fresh "E" in
  intros [a t] [a' t'] [E ?]; cbn [fst snd] in *; subst a'.
Definition opt_rel {A} (R : A -> A -> Prop) (x y : option A) : Prop :=
  match x, y with Some a, Some b => R a b | None, None => True | _, _ => False end.
Lemma S_read_tsurf s s' : skw = lit "TFACE" -> Ss s s' ->
  res_rel (fun x y => opt_rel same_ts (fst x) (fst y) /\ Ss (snd x) (snd y)) (read_tsurf F s) (read_tsurf F s').
Proof.
  intros Hkw H. unfold read_tsurf.
  pose proof (S_goto_if (lit "GOCAD TSurf") s s' ltac:(notrow) H) as E.
  destruct (goto_if _ s) as [[l|] t], (goto_if _ s') as [[l'|] t']; try contradiction.
  2:{ split; auto. exact I. }
  destruct E as [_ [E _]].
  step0 S_read_header. step0 S_read_CRS. step0 S_read_prop_header.
  unfold read_tfaces. rewrite !bind_assoc.
  eapply res_rel_bind; [apply S_goto_keyword; [notrow|eassumption]|].
  intros [x1 x2] [y1 y2] [_ [E2 [its [Hg [Hs [P1 P2]]]]]]. cbn [fst snd] in *. rewrite !bind_assoc. rewrite P1, P2.
  eapply res_rel_bind; [apply S_tfaces_loop; [now apply good_tl in Hg|]|].
  - left. split; [reflexivity|]. split; [reflexivity|]. destruct Hg as [_ [_ Hg]]. apply Hg. now rewrite Hkw.
  - intros [a r] [a' r'] [Ea Er]. cbn [fst snd] in *. split; [exact Ea|]. split; [exact Er|]. now destruct E2.
Qed.
Lemma same_ts_build m ts ts' : same_ts ts ts' -> build_surface m ts = build_surface m ts'.
Proof.
  intros [E1 [E2 [E3 [E4 E5]]]]. unfold build_surface. rewrite E1, E2, E3, E4, E5. reflexivity.
Qed.
Lemma S_read_ts_loop n (m : mesh F tri) s s' : skw = lit "TFACE" -> Ss s s' ->
  read_ts_loop n m s = read_ts_loop n m s'.
Proof.
  intros Hkw. revert m s s'. induction n as [|n IH]; intros m s s' H; [reflexivity|]. cbn [read_ts_loop].
  apply res_rel_eq. eapply res_rel_bind; [apply S_read_tsurf; eassumption|].
  intros [o t] [o' t'] [E1 E2]. cbn [fst snd] in *. apply res_rel_eq.
  destruct o, o'; try contradiction; [|reflexivity].
  rewrite (same_ts_build m _ _ E1). apply bind_ext. intros a _. now apply IH.
Qed.

(** ** Curves *)
Definition Rec (its : list item) (ec ec' : ECurve F) : Prop :=
  (e_points ec = [] /\ ec = ec' /\ vertex_first its) \/
  (e_points ec <> [] /\ exists o, e_offset ec = o + k /\
     ec' = mkECurve (o + k') (e_name ec) (e_crs ec) (e_points ec) (e_edges ec)).
Definition same_ec (ec ec' : ECurve F) : Prop :=
  e_name ec = e_name ec' /\ e_points ec = e_points ec' /\ e_edges ec = e_edges ec'.
Lemma iline_vertex b0 n rest ec kk : row_ok kk (Vertex b0 n rest) ->
  iline_line F ec (render kk (Row (Vertex b0 n rest))) =
  do p <- vrtx_point F (e_crs ec) (lit "VRTX" :: lit "1" :: rest);
  Ok (mkECurve (match e_points ec with [] => n + kk | _ => e_offset ec end) (e_name ec) (e_crs ec)
        (e_points ec ++ [p]) (e_edges ec), false).
Proof.
  intros H. unfold iline_line. rewrite row_split by assumption. inv_row H.
  cbn [row_words fst snd front bind]. destruct ec as [off name crs pts edges].
  cbn [e_offset e_name e_crs e_points e_edges].
  replace (is_vrtx (if b0 then lit "PVRTX" else lit "VRTX")) with true by (destruct b0; reflexivity).
  assert (E : vrtx_offset (match pts with [] => true | _ => false end) off
           ((if b0 then lit "PVRTX" else lit "VRTX") :: show (n + kk) :: rest)
           = Ok (match pts with [] => n + kk | _ => off end)).
  { unfold vrtx_offset. destruct pts; [|reflexivity]. cbn [idx nth_error bind].
    now apply string_to_index_show. }
  rewrite E. reflexivity.
Qed.
Lemma iline_row r ec o kk : row_ok kk r -> (forall p n rest, r <> Vertex p n rest) ->
  e_offset ec = o + kk ->
  iline_line F ec (render kk (Row r)) =
  Ok (mkECurve (o + kk) (e_name ec) (e_crs ec) (e_points ec)
       (match r with
        | Segment a b _ => e_edges ec ++ [(wrap32 (a - o), wrap32 (b - o))]
        | _ => e_edges ec
        end), false).
Proof.
  intros H Hv Ho. unfold iline_line. rewrite row_split by assumption.
  destruct ec as [off name crs pts edges]. cbn [e_offset e_name e_crs e_points e_edges] in *. subst off.
  assert (Hx : forall a tk i, 0 <= a + kk < two32 -> nth_error tk i = Some (show (a + kk)) ->
     tok_index (o + kk) tk i = Ok (wrap32 (a - o))).
  { intros a tk i Ha Hi. unfold tok_index, idx. rewrite Hi. cbn [bind].
    rewrite string_to_index_show by lia. cbn [bind]. unfold sub32. do 2 f_equal. lia. }
  destruct r as [p0 n rest|p0 n ref rest|a b c rest|a rest|x a b rest|a b rest];
    cbn [row_words fst snd front bind].
  - now destruct (Hv p0 n rest).
  - destruct p0; reflexivity.
  - reflexivity.
  - reflexivity.
  - reflexivity.
  - inv_row H. change (is_vrtx (lit "SEG")) with false. change (beq (lit "SEG") (lit "SEG")) with true. cbv iota.
    rewrite (Hx a), (Hx b) by (assumption || reflexivity). reflexivity.
Qed.
Lemma iline_raw l ec : raw_ok l ->
  iline_line F ec l = do w <- front (string_split l); Ok (ec, beq w (lit "END")).
Proof.
  intros [_ Hr]. unfold iline_line. destruct (string_split l) as [|w tk]; [reflexivity|].
  specialize (Hr w tk eq_refl). cbn [front bind].
  assert (Hb : forall kw, In kw row_keywords -> beq w kw = false).
  { intros kw Hi. apply beq_neq. intros ->. now apply Hr. }
  unfold is_vrtx. rewrite (Hb (lit "VRTX")), (Hb (lit "PVRTX")), (Hb (lit "SEG")) by (cbn; tauto). cbn [orb].
  destruct ec. destruct (beq w "END"); reflexivity.
Qed.
Lemma S_ilines_loop its ec ec' : good its -> Rec its ec ec' ->
  res_rel (fun x y => same_ec (fst x) (fst y) /\ Ls (snd x) (snd y))
    (ilines_loop F ec (map (render k) its)) (ilines_loop F ec' (map (render k') its)).
Proof.
  intros Hg. revert ec ec'. induction its as [|i its IH]; intros ec ec' HR.
  { split; [|apply (Ls_good []), Hg]. destruct HR as [[Hp [<- _]]|[Hp [o [_ ->]]]]; now repeat split. }
  pose proof Hg as [Ha [Hb _]]. inversion Ha; inversion Hb; subst. specialize (IH (good_tl _ _ Hg)).
  cbn [map ilines_loop].
  destruct i as [r|l].
  - destruct HR as [[Hp [<- Hv]]|[Hp [o [Ho ->]]]].
    + destruct r as [b0 n rest| | | | |]; try contradiction.
      rewrite !iline_vertex by assumption. rewrite Hp, !bind_assoc.
      eapply res_rel_bind; [apply res_rel_refl with (P := eq); reflexivity|]. intros p ? <-. cbn [bind].
      apply IH. right. cbn [e_points app]. split; [discriminate|]. exists n. now split.
    + destruct r as [b0 n rest|p0 n ref rest|a b c rest|a rest|x a b rest|a b rest].
      1:{ rewrite !iline_vertex by assumption. rewrite !bind_assoc.
        cbn [e_offset e_name e_crs e_points e_edges].
        eapply res_rel_bind; [apply res_rel_refl with (P := eq); reflexivity|]. intros p ? <-. cbn [bind].
        apply IH. right. cbn [e_offset e_name e_crs e_points e_edges].
        destruct (e_points ec) as [|p0 ps] eqn:E; [contradiction|]. split; [discriminate|]. exists o. now split. }
      all: rewrite (iline_row _ ec o k) by (auto; discriminate);
        rewrite (iline_row _ _ o k') by (auto; discriminate); cbn [bind]; apply IH; right; split; [assumption|];
        exists o; now split.
  - cbn [render]. rewrite !iline_raw by assumption. rewrite !bind_assoc.
    eapply res_rel_bind; [apply res_rel_refl with (P := eq); reflexivity|]. intros w ? <-. cbn [bind].
    destruct (beq w _).
    + split; [|apply Ls_good; now apply good_tl in Hg]. destruct HR as [[Hp [<- _]]|[Hp [o [_ ->]]]]; now repeat split.
    + apply IH. destruct HR as [HR|HR]; [left|right]; exact HR.
Qed.
Lemma S_read_ecurve s s' : skw = lit "ILINE" -> Ss s s' ->
  res_rel (fun x y => opt_rel same_ec (fst x) (fst y) /\ Ss (snd x) (snd y)) (read_ecurve F s) (read_ecurve F s').
Proof.
  intros Hkw H. unfold read_ecurve.
  pose proof (S_goto_if (lit "GOCAD PLine") s s' ltac:(notrow) H) as E.
  destruct (goto_if _ s) as [[l|] t], (goto_if _ s') as [[l'|] t']; try contradiction.
  2:{ split; auto. exact I. }
  destruct E as [_ [E _]].
  step0 S_read_header. step0 S_read_CRS.
  unfold read_ilines. rewrite !bind_assoc.
  eapply res_rel_bind; [apply S_goto_keyword; [notrow|eassumption]|].
  intros [x1 x2] [y1 y2] [_ [E2 [its [Hg [Hs [P1 P2]]]]]]. cbn [fst snd] in *. rewrite !bind_assoc. rewrite P1, P2.
  eapply res_rel_bind; [apply S_ilines_loop; [now apply good_tl in Hg|]|].
  - left. split; [reflexivity|]. split; [reflexivity|]. destruct Hg as [_ [_ Hg]]. apply Hg. now rewrite Hkw.
  - intros [a r] [a' r'] [Ea Er]. cbn [fst snd] in *. split; [exact Ea|]. split; [exact Er|]. now destruct E2.
Qed.
Lemma S_read_pl_loop n (m : mesh F edge) s s' : skw = lit "ILINE" -> Ss s s' ->
  read_pl_loop n m s = read_pl_loop n m s'.
Proof.
  intros Hkw. revert m s s'. induction n as [|n IH]; intros m s s' H; [reflexivity|]. cbn [read_pl_loop].
  apply res_rel_eq. eapply res_rel_bind; [apply S_read_ecurve; eassumption|].
  intros [o t] [o' t'] [E1 E2]. cbn [fst snd] in *. apply res_rel_eq.
  destruct o, o'; try contradiction; [|reflexivity].
  destruct E1 as [Ea [Eb Ec]]. unfold build_curve. rewrite Ea, Eb, Ec. apply bind_ext. intros a _. now apply IH.
Qed.
End Num.
End Shift.
