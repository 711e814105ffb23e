(** * CR LF files of the other formats (C119): wells, Voxets, corner-point grids, structural models, solids. *)
From Coq Require Import ZArith List Lia Bool Ascii String.
From Verif Require Import Base Text TextFacts GocadModel MeshModel TsModel Spec GocadFacts StreamFacts CrlfFacts.
From Verif Require Import WellModel VoModel GrdeclModel SignsModel MlModel LsoModel SkuaModel StratiLso.
From Verif Require Import ExNum ExCheck PropsWell PropsVo PropsGrdecl GrammarMl PropsGrammarMl PropsGrammarLso.
Import ListNotations.
Local Open Scope string_scope.
Local Open Scope list_scope.
Local Open Scope Z_scope.

Ltac nocr := apply no_CR_ok; reflexivity.
Ltac same := eapply res_rel_bind; [apply res_rel_refl with (P := eq); reflexivity|].

Lemma Rl_contains l l' p : ~ In CR p -> p <> [] -> Rl l l' -> contains l' p = contains l p.
Proof.
  intros H1 H2 H. unfold contains. pose proof (Rl_after_first p l l' H1 H2 H) as E.
  destruct (after_first p l), (after_first p l'); try contradiction; reflexivity.
Qed.
Lemma R_getline line line' s s' : Rl line line' -> Rs s s' ->
  let '(g, l, t) := getline line s in let '(g', l', t') := getline line' s' in
  g = g' /\ Rl l l' /\ Rs t t'.
Proof.
  intros Hl [H Hn]. unfold getline. rewrite <- Hn. inversion H as [|l l' r r' H1 H2]; cbn.
  - split; [reflexivity|]. split; [destruct (nl s); [now left|assumption]|]. split; [constructor|reflexivity].
  - split; [reflexivity|]. split; [assumption|]. split; [assumption|reflexivity].
Qed.
Lemma loadable_crlf kw text : ~ In CR kw -> loadable kw (to_crlf text) = loadable kw text.
Proof.
  intros H. unfold loadable. pose proof (R_goto_if kw _ _ H (open_crlf text)) as E.
  destruct (goto_if kw (open_text text)) as [[]?], (goto_if kw (open_text (to_crlf text))) as [[]?]; try contradiction; reflexivity.
Qed.

Section All.
Context (F : Num).

(** ** Wells *)
Lemma R_read_coord l l' n : Rl l l' -> read_coord F l' n = read_coord F l n.
Proof. intros H. unfold read_coord. now rewrite (Rl_split l l'). Qed.
Lemma R_paths_loop crs ref ls ls' m : Forall2 Rl ls ls' -> paths_loop F crs ref ls' m = paths_loop F crs ref ls m.
Proof.
  intros H. revert m. induction H as [|l l' r r' H1 H2 IH]; intros m; [reflexivity|]. cbn [paths_loop].
  rewrite (Rl_starts l l') by (nocr || assumption). destruct (starts_with l _); [|reflexivity].
  rewrite (R_read_coord l l') by assumption. apply bind_ext. intros [[t0 t1] t2] _. destruct ref as [[rx ry] rz].
  apply bind_ext. intros m2 _. apply IH.
Qed.
Lemma crlf_wl text : read_wl F (to_crlf text) = read_wl F text.
Proof.
  unfold read_wl. pose proof (R_goto_if (lit "GOCAD Well") _ _ ltac:(nocr) (open_crlf text)) as E. symmetry.
  destruct (goto_if _ (open_text text)) as [[]s0], (goto_if _ (open_text (to_crlf text))) as [[]s0']; try contradiction; [|reflexivity].
  destruct E as [_ E]. apply res_rel_eq.
  eapply res_rel_bind; [apply R_read_header; exact E|]. intros [n s] [n' s'] [En Es]. cbn [fst snd] in En, Es. subst n'.
  eapply res_rel_bind; [apply R_read_CRS; exact Es|]. intros [c s1] [c' s1'] [Ec Es1]. cbn [fst snd] in Ec, Es1. subst c'.
  unfold read_ref. rewrite !bind_assoc.
  eapply res_rel_bind; [apply R_goto_keyword; [nocr|exact Es1]|]. intros [l s2] [l' s2'] [El Es2]. cbn [fst snd] in El, Es2.
  rewrite (R_read_coord l l') by assumption. rewrite !bind_assoc. same. intros [[x y] z] ? <-. cbn [bind].
  eapply res_rel_bind; [apply R_goto_keyword; [nocr|exact Es2]|]. intros [l3 s3] [l3' s3'] [El3 [Es3 _]]. cbn [fst snd] in Es3.
  apply res_rel_eq. symmetry. now apply R_paths_loop.
Qed.
Lemma R_foldM {B} (f : B -> bytes -> res B) ls ls' : (forall b l l', Rl l l' -> f b l' = f b l) -> Forall2 Rl ls ls' ->
  forall b, foldM f ls' b = foldM f ls b.
Proof.
  intros Hf. induction 1 as [|l l' r r' H1 H2 IH]; intros b; [reflexivity|]. cbn [foldM]. rewrite (Hf b l l') by assumption.
  apply bind_ext. intros b' _. apply IH.
Qed.
Lemma crlf_well name text : read_well F name (to_crlf text) = read_well F name text.
Proof.
  unfold read_well, read_rows. destruct (open_crlf text) as [H _].
  rewrite (R_foldM _ (pending (open_text text)) (pending (open_text (to_crlf text)))); [reflexivity| |exact H].
  intros b l l' HR. now rewrite (R_read_coord l l').
Qed.
Lemma R_dev_header_loop fp h ls ls' : Forall2 Rl ls ls' -> res_rel Rv (dev_header_loop fp h ls) (dev_header_loop fp h ls').
Proof.
  intros H. revert fp h. induction H as [|l l' r r' H1 H2 IH]; intros fp h; [reflexivity|]. cbn [dev_header_loop].
  rewrite !(Rl_starts l l') by (nocr || assumption). destruct (starts_with l "#===").
  - destruct fp; [apply IH|]. split; auto.
  - destruct (starts_with l "# WELL NAME:").
    + rewrite (Rl_split l l') by assumption. same. intros n ? <-. apply IH.
    + destruct fp; [apply IH|]. unfold dev_columns. rewrite (Rl_split l l') by assumption. same. intros h' ? <-. apply IH.
Qed.
Lemma crlf_dev text : read_dev F (to_crlf text) = read_dev F text.
Proof.
  symmetry. unfold read_dev. apply res_rel_eq.
  eapply res_rel_bind; [apply R_check_keyword; [nocr|apply open_crlf]|]. intros s s' [Es _].
  eapply res_rel_bind; [apply R_dev_header_loop; exact Es|]. intros [h r] [h' r'] [Eh Er]. cbn [fst snd] in Eh, Er. subst h'.
  same. intros m ? <-. apply res_rel_eq. rewrite (R_foldM _ r r'); [reflexivity| |exact Er].
  intros b l l' HR. unfold dev_row. now rewrite (Rl_split l l').
Qed.

(** ** Structural models *)
Lemma R_read_ids parse ls ls' : Forall2 Rl ls ls' -> res_rel Rv (read_ids parse ls) (read_ids parse ls').
Proof.
  induction 1 as [|l l' r r' H1 H2 IH]; [exact I|]. cbn [read_ids]. rewrite (Rl_split l l') by assumption.
  same. intros [vs stop] ? <-. destruct stop; [split; auto|].
  eapply res_rel_bind; [exact IH|]. intros [a b] [a' b'] [E1 E2]. cbn [fst snd] in *. subst a'. split; auto.
Qed.
Lemma R_component_line st l l' r r' : Rl l l' -> Forall2 Rl r r' -> res_rel Rv (component_line st l r) (component_line st l' r').
Proof.
  intros H1 H2. unfold component_line. rewrite (Rl_split l l') by assumption. same. intros kw ? <-.
  destruct st as [ts ss un bs us fs]. cbn zeta.
  destruct (beq kw "TSURF"); [split; auto|]. destruct (beq kw "TFACE").
  { same. intros f ? <-. destruct (add_tface _ _ _ _); [split; auto|reflexivity]. }
  destruct (beq kw "REGION").
  { same. intros f ? <-. destruct (beq _ "Universe").
    - eapply res_rel_bind; [apply R_read_ids; exact H2|]. intros [a b] [a' b'] [E1 E2]. cbn [fst snd] in *. subst a'.
      same. intros ns ? <-. split; auto.
    - eapply res_rel_bind; [apply R_read_ids; exact H2|]. intros [a b] [a' b'] [E1 E2]. cbn [fst snd] in *. subst a'.
      same. intros ns ? <-. same. intros [bd it] ? <-. split; auto. }
  destruct (beq kw "LAYER").
  { eapply res_rel_bind; [apply R_read_ids; exact H2|]. intros [a b] [a' b'] [E1 E2]. cbn [fst snd] in *. subst a'. split; auto. }
  destruct (beq kw "FAULT_BLOCK").
  { eapply res_rel_bind; [apply R_read_ids; exact H2|]. intros [a b] [a' b'] [E1 E2]. cbn [fst snd] in *. subst a'. split; auto. }
  split; auto.
Qed.
Lemma R_components_loop fuel st ls ls' : Forall2 Rl ls ls' -> res_rel Rv (components_loop fuel st ls) (components_loop fuel st ls').
Proof.
  revert st ls ls'. induction fuel as [|f IH]; intros st ls ls' H; [exact I|]. cbn [components_loop].
  inversion H as [|l l' r r' H1 H2]; subst; [reflexivity|].
  rewrite (Rl_starts l l') by (nocr || assumption). destruct (starts_with l _); [split; auto|].
  eapply res_rel_bind; [apply R_component_line; eassumption|]. intros [a b] [a' b'] [E1 E2]. cbn [fst snd] in *. subst a'. now apply IH.
Qed.
Lemma R_build_all ts s s' : Rs s s' -> build_all (F := F) ts s = build_all ts s'.
Proof.
  revert s s'. induction ts as [|t r IH]; intros s s' H; [reflexivity|]. cbn [build_all]. apply res_rel_eq.
  eapply res_rel_bind; [apply R_read_tsurf; exact H|]. intros [o t0] [o' t0'] [E1 E2]. cbn [fst snd] in *. subst o'. apply res_rel_eq.
  destruct o; [|reflexivity]. apply bind_ext. intros a _. now rewrite (IH t0 t0').
Qed.
Lemma crlf_ml text : read_ml F (to_crlf text) = read_ml F text.
Proof.
  unfold read_ml. pose proof (R_goto_if (lit "GOCAD Model3d") _ _ ltac:(nocr) (open_crlf text)) as E. symmetry.
  destruct (goto_if _ (open_text text)) as [[]s0], (goto_if _ (open_text (to_crlf text))) as [[]s0']; try contradiction; [|reflexivity].
  destruct E as [_ E]. apply res_rel_eq.
  eapply res_rel_bind; [apply R_read_header; exact E|]. intros [n s] [n' s'] [En Es]. cbn [fst snd] in En, Es. subst n'.
  eapply res_rel_bind; [apply R_read_CRS; exact Es|]. intros [c s1] [c' s1'] [Ec Es1]. cbn [fst snd] in Ec, Es1. subst c'.
  unfold read_components. rewrite <- (Rs_length _ _ Es1). destruct Es1 as [Es1 En1].
  eapply res_rel_bind; [apply R_components_loop; exact Es1|]. intros [st r] [st' r'] [E1 E2]. cbn [fst snd] in *. subst st'.
  same. intros cs ? <-. rewrite (R_build_all (i_tsurfs st) (mkStream r (nl s1)) (mkStream r' (nl s1'))) by now split.
  apply res_rel_refl. reflexivity.
Qed.

(** ** Solids *)
Definition Rt {A} (x y : A * bytes * istream) : Prop :=
  fst (fst x) = fst (fst y) /\ Rl (snd (fst x)) (snd (fst y)) /\ Rs (snd x) (snd y).
Definition Rls (x y : bytes * istream) : Prop := Rl (fst x) (fst y) /\ Rs (snd x) (snd y).
Lemma last_line (b : bool) l l' : Rl l l' -> Rl (if b then [] else l) (if b then [] else l').
Proof. destruct b; [now left|auto]. Qed.
Lemma R_lso_vertices crs vp sv l l' b ls ls' : Rl l l' -> Forall2 Rl ls ls' ->
  res_rel Rt (lso_vertices F crs vp sv l b ls) (lso_vertices F crs vp sv l' b ls').
Proof.
  intros H1 H2. revert sv l l' H1. induction H2 as [|k k' r r' K1 K2 IH]; intros sv l l' H1; cbn [lso_vertices].
  - unfold lso_vertex. rewrite (Rl_split l l'), (Rl_starts l l') by (nocr || assumption). same. intros sv' ? <-.
    split; [reflexivity|]. split; [now apply last_line|]. split; [constructor|reflexivity].
  - unfold lso_vertex at 1 2. rewrite (Rl_split l l'), (Rl_starts l l') by (nocr || assumption). same. intros sv' ? <-.
    rewrite (Rl_contains k k') by (nocr || discriminate || assumption). destruct (contains k "VRTX"); [now apply IH|].
    split; [reflexivity|]. split; [assumption|]. split; [assumption|reflexivity].
Qed.
Lemma R_skip_indicators kind l l' s s' : ~ In CR kind -> Rl l l' -> Rs s s' -> res_rel Rls (skip_indicators kind l s) (skip_indicators kind l' s').
Proof.
  intros Hk H1 H2. unfold skip_indicators.
  assert (K : forall p q, ~ In CR p -> ~ In CR q -> ~ In CR (p ++ kind ++ q)).
  { intros p q Hp Hq Hi. apply in_app_or in Hi as [Hi|Hi]; [auto|]. apply in_app_or in Hi as [Hi|Hi]; auto. }
  rewrite (Rl_starts l l') by (assumption || (apply K; nocr)). destruct (starts_with l _); [|split; assumption].
  eapply res_rel_bind; [apply R_goto_keyword; [apply K; nocr|exact H2]|]. intros [a t] [a' t'] [E1 E2]. cbn [fst snd] in *.
  pose proof (R_getline l l' t t' H1 E2) as G. destruct (getline l t) as [[g x] u], (getline l' t') as [[g' x'] u'].
  destruct G as (_ & G1 & G2). split; assumption.
Qed.
Lemma R_lso_tetra tp n st l l' k k' : Rl l l' -> Rl k k' -> lso_tetra F tp n st l' k' = lso_tetra F tp n st l k.
Proof. intros H1 H2. unfold lso_tetra. now rewrite (Rl_split l l'), (Rl_split k k'). Qed.
Lemma R_lso_tetras tp n b m : forall st l l' ls ls', (List.length ls <= m)%nat -> Rl l l' -> Forall2 Rl ls ls' ->
  res_rel Rt (lso_tetras F tp n st l b ls) (lso_tetras F tp n st l' b ls').
Proof.
  induction m as [|m IH]; intros st l l' ls ls' L H1 H2; destruct H2 as [|k k' r r' K1 K2]; try (cbn in L; lia); cbn [lso_tetras]; cbv zeta.
  - eapply res_rel_bind; [apply res_rel_eq; symmetry; apply R_lso_tetra; [exact H1|now apply last_line]|]. intros st' ? <-. split; [reflexivity|]. split; [now apply last_line|]. split; [constructor|reflexivity].
  - eapply res_rel_bind; [apply res_rel_eq; symmetry; apply R_lso_tetra; [exact H1|now apply last_line]|]. intros st' ? <-. split; [reflexivity|]. split; [now apply last_line|]. split; [constructor|reflexivity].
  - rewrite (R_lso_tetra tp n st l l' k k') by assumption. same. intros st' ? <-.
    destruct K2 as [|j j' q q' J1 J2].
    + split; [reflexivity|]. split; [now apply last_line|]. split; [constructor|reflexivity].
    + rewrite (Rl_starts j j') by (nocr || assumption). destruct (starts_with j _).
      * apply IH; [cbn in L; lia|assumption|assumption].
      * split; [reflexivity|]. split; [assumption|]. split; [assumption|reflexivity].
Qed.
Lemma R_lso_triangles sv tets s b ls ls' : Forall2 Rl ls ls' -> forall st l l', Rl l l' ->
  res_rel Rt (lso_triangles F sv tets s st l b ls) (lso_triangles F sv tets s st l' b ls').
Proof.
  induction 1 as [|k k' r r' K1 K2 IH]; intros st l l' H; cbn [lso_triangles].
  - split; [reflexivity|]. split; [now apply last_line|]. split; [constructor|reflexivity].
  - rewrite (Rl_starts k k') by (nocr || assumption). destruct (starts_with k _).
    + unfold lso_trgl. rewrite (Rl_split k k') by assumption. same. intros st' ? <-. now apply IH.
    + split; [reflexivity|]. split; [assumption|]. split; [assumption|reflexivity].
Qed.
Lemma R_lso_tfaces fuel : forall sv tets name st l l' s s', Rl l l' -> Rs s s' ->
  res_rel Rt (lso_tfaces F fuel sv tets name st l s) (lso_tfaces F fuel sv tets name st l' s').
Proof.
  induction fuel as [|f IH]; intros sv tets name st l l' s s' H1 H2; [exact I|]. cbn [lso_tfaces].
  rewrite (Rl_starts l l') by (nocr || assumption). destruct (starts_with l _); [|split; [reflexivity|split; assumption]].
  pose proof (R_getline l l' s s' H1 H2) as G. destruct (getline l s) as [[g x] u], (getline l' s') as [[g' x'] u'].
  destruct G as (_ & G1 & [G2 G3]). rewrite <- G3.
  eapply res_rel_bind; [apply R_lso_triangles; eassumption|]. intros [[ts l2] s2] [[ts' l2'] s2'] (E1 & E2 & E3). cbn [fst snd] in *. subst ts'.
  now apply IH.
Qed.
Lemma R_lso_surfaces fuel : forall sv tets st hs l l' s s', Rl l l' -> Rs s s' ->
  res_rel Rt (lso_surfaces F fuel sv tets st hs l s) (lso_surfaces F fuel sv tets st hs l' s').
Proof.
  induction fuel as [|f IH]; intros sv tets st hs l l' s s' H1 H2; [exact I|]. cbn [lso_surfaces].
  rewrite (Rl_starts l l'), (Rl_split l l') by (nocr || assumption). destruct (starts_with l _); [|split; [reflexivity|split; assumption]].
  pose proof (R_getline l l' s s' H1 H2) as G. destruct (getline l s) as [[g x] u], (getline l' s') as [[g' x'] u'].
  destruct G as (_ & G1 & G2). rewrite <- (Rs_length _ _ G2).
  eapply res_rel_bind; [apply R_lso_tfaces; eassumption|]. intros [[ts l2] s2] [[ts' l2'] s2'] (E1 & E2 & E3). cbn [fst snd] in *. subst ts'.
  now apply IH.
Qed.
Lemma R_lso_blocks vp tp fuel : forall sv st ss l l' s s', Rl l l' -> Rs s s' ->
  lso_blocks F vp tp fuel sv st ss l' s' = lso_blocks F vp tp fuel sv st ss l s.
Proof.
  induction fuel as [|f IH]; intros sv st ss l l' s s' H1 H2; [reflexivity|]. cbn [lso_blocks].
  rewrite (Rl_starts l l'), (Rl_split l l') by (nocr || assumption). destruct (starts_with l _); [|reflexivity].
  apply bind_ext. intros name _. apply bind_ext. intros [b bad] _.
  pose proof (R_getline l l' s s' H1 H2) as G. destruct (getline l s) as [[g x] u], (getline l' s') as [[g' x'] u'].
  destruct G as (_ & G1 & G2). now rewrite (IH sv st ss x x' u u').
Qed.
Lemma R_lso_body crs vp tp title s s' : Rs s s' -> lso_body F crs vp tp title s' = lso_body F crs vp tp title s.
Proof.
  intros H. symmetry. apply res_rel_eq. unfold lso_body.
  eapply res_rel_bind; [apply R_goto_keywords; [|exact H]|].
  { repeat (apply Forall_cons; [nocr|]). constructor. }
  intros [l s1] [l' s1'] [E1 [E2 E3]]. cbn [fst snd] in *. rewrite <- E3.
  eapply res_rel_bind; [apply R_lso_vertices; eassumption|]. intros [[sv l2] s2] [[sv' l2'] s2'] (E & El & Es). cbn [fst snd] in E, El, Es. subst sv'.
  eapply res_rel_bind; [apply R_skip_indicators; [nocr|exact El|exact Es]|]. intros [l3 s3] [l3' s3'] [El3 [Es3 En3]]. cbn [fst snd] in El3, Es3, En3.
  rewrite <- En3.
  eapply res_rel_bind; [eapply R_lso_tetras; [apply Nat.le_refl|exact El3|exact Es3]|].
  intros [[st l4] s4] [[st' l4'] s4'] (E4 & El4 & Es4). cbn [fst snd] in E4, El4, Es4. subst st'.
  eapply res_rel_bind; [apply R_skip_indicators; [nocr|exact El4|exact Es4]|]. intros [l5 s5] [l5' s5'] [El5 Es5]. cbn [fst snd] in El5, Es5.
  eapply res_rel_bind with (P := Rls).
  { rewrite (Rl_starts l5 l5') by (nocr || assumption). destruct (starts_with l5 _); [now split|].
    eapply res_rel_bind; [apply R_goto_keyword; [nocr|exact Es5]|]. intros [k t] [k' t'] [K1 K2]. now split. }
  intros [l6 s6] [l6' s6'] [El6 Es6]. cbn [fst snd] in El6, Es6.
  pose proof (R_getline l6 l6' s6 s6' El6 Es6) as G. destruct (getline l6 s6) as [[g x] u], (getline l6' s6') as [[g' x'] u'].
  destruct G as (_ & G1 & G2). rewrite <- (Rs_length _ _ G2).
  eapply res_rel_bind; [apply R_lso_surfaces; eassumption|].
  intros [[[ss hs] l7] s7] [[[ss' hs'] l7'] s7'] (E7 & El7 & Es7). cbn [fst snd] in E7, El7, Es7. injection E7 as <- <-.
  rewrite <- (Rs_length _ _ Es7). rewrite (R_lso_blocks vp tp _ sv st ss l7 l7' s7 s7') by assumption.
  apply res_rel_refl. reflexivity.
Qed.
Lemma crlf_lso text : read_lso F (to_crlf text) = read_lso F text.
Proof.
  unfold read_lso. pose proof (R_goto_if (lit "GOCAD LightTSolid") _ _ ltac:(nocr) (open_crlf text)) as E. symmetry.
  destruct (goto_if _ (open_text text)) as [[]s0], (goto_if _ (open_text (to_crlf text))) as [[]s0']; try contradiction; [|reflexivity].
  destruct E as [_ E]. apply res_rel_eq.
  eapply res_rel_bind; [apply R_read_header; exact E|]. intros [n s] [n' s'] [En Es]. cbn [fst snd] in En, Es. subst n'.
  eapply res_rel_bind; [apply R_read_CRS; exact Es|]. intros [c s1] [c' s1'] [Ec Es1]. cbn [fst snd] in Ec, Es1. subst c'.
  eapply res_rel_bind; [apply R_prop_header; [intros []|exact Es1]|]. intros [vp s2] [vp' s2'] [Ev Es2]. cbn [fst snd] in Ev, Es2. subst vp'.
  eapply res_rel_bind; [apply R_prop_header; [nocr|exact Es2]|]. intros [tp s3] [tp' s3'] [Et Es3]. cbn [fst snd] in Et, Es3. subst tp'.
  apply res_rel_eq. symmetry. now apply R_lso_body.
Qed.

(** ** Voxets *)
Lemma res_rel_bind_ok {A B A' B'} (P : A -> A' -> Prop) (Q : B -> B' -> Prop) r r' f f' :
  res_rel P r r' -> (forall a a', r = Ok a -> P a a' -> res_rel Q (f a) (f' a')) -> res_rel Q (bind r f) (bind r' f').
Proof. destruct r, r'; simpl; intros H1 H2; auto; try contradiction. Qed.
Lemma cut_chars c cur t : (exists l, In l (fst (cut cur t)) /\ In c l) -> In c cur \/ In c t.
Proof.
  revert cur; induction t as [|d t IH]; intros cur (l & H1 & H2); cbn [cut] in H1.
  - destruct cur; [destruct H1|]. destruct H1 as [<- | []]. now left.
  - destruct (Ascii.eqb d LF).
    + specialize (IH []). destruct (cut [] t) as [ls b]. cbn [fst] in *. destruct H1 as [<- | H1]; [now left|].
      destruct IH as [[] | H]; [now exists l|]. right. now right.
    + destruct (IH (cur ++ [d])) as [H|H]; [now exists l| |right; now right].
      apply in_app_or in H as [H|[<- | []]]; [now left|right; now left].
Qed.
Lemma lines_no_CR text l : ~ In CR text -> In l (pending (open_text text)) -> ~ In CR l.
Proof.
  intros H Hl Hc. apply H. unfold open_text in Hl. destruct (cut_chars CR [] text) as [[] | X]; [|exact X].
  exists l. split; [|assumption]. destruct (cut [] text). exact Hl.
Qed.
Lemma starts_with_split p : forall l, starts_with l p = true -> exists r, l = p ++ r.
Proof.
  induction p as [|c p IH]; intros l H; [now exists l|]. destruct l as [|d l]; [discriminate|]. cbn [starts_with] in H.
  apply andb_true_iff in H as [H1 H2]. apply Ascii.eqb_eq in H1. subst d. destruct (IH l H2) as [r ->]. now exists r.
Qed.
Lemma clean_name_CR l : forall skip, (skip <= List.length l)%nat -> clean_name skip (l ++ [CR]) = clean_name skip l ++ [CR].
Proof.
  induction l as [|c l IH]; intros skip L.
  - cbn in L. assert (skip = O) as -> by lia. reflexivity.
  - destruct skip as [|n].
    + cbn [app clean_name]. change (c :: l ++ [CR]) with ((c :: l) ++ [CR]). rewrite starts_with_CR by nocr.
      destruct (starts_with (c :: l) "ASCII_DATA_FILE ") eqn:E.
      * apply IH. apply starts_with_split in E as [t E]. apply (f_equal (@List.length ascii)) in E. rewrite app_length in E. cbn in E. lia.
      * destruct (Ascii.eqb c QUOTE); [apply IH; lia|]. cbn [app]. f_equal. apply IH. lia.
    + cbn [app clean_name]. apply IH. cbn in L. lia.
Qed.
Lemma clean_name_in c l : forall skip, In c (clean_name skip l) -> In c l.
Proof.
  induction l as [|d l IH]; intros skip H; [destruct skip; destruct H|]. cbn [clean_name] in H. destruct skip; [|right; eauto].
  destruct (starts_with _ _); [right; eauto|]. destruct (Ascii.eqb d QUOTE); [right; eauto|]. destruct H as [->|H]; [now left|right; eauto].
Qed.
Lemma strip_CR l : strip_cr (l ++ [CR]) = l.
Proof. unfold strip_cr. rewrite rev_app_distr. cbn [rev app]. change (Ascii.eqb CR (ascii_of_nat 13)) with true. cbv iota. apply rev_involutive. Qed.
Lemma strip_no_CR l : ~ In CR l -> strip_cr l = l.
Proof.
  intros H. unfold strip_cr. destruct (rev l) as [|c t] eqn:E; [reflexivity|]. destruct (Ascii.eqb c _) eqn:X; [|reflexivity].
  apply Ascii.eqb_eq in X. exfalso. apply H. apply in_rev. rewrite E. left. exact X.
Qed.
Lemma R_data_name l l' : ~ In CR l -> Rl l l' -> strip_cr (clean_name 0 l') = strip_cr (clean_name 0 l).
Proof.
  intros H [-> | ->]; [reflexivity|]. rewrite clean_name_CR by lia. rewrite strip_CR, strip_no_CR; [reflexivity|].
  intros X. apply H. eapply clean_name_in; exact X.
Qed.
Lemma R_nth n ls ls' d d' : Forall2 Rl ls ls' -> Rl d d' -> Rl (nth n ls d) (nth n ls' d').
Proof. intros H Hd. revert n. induction H as [|l l' r r' H1 H2 IH]; intros [|n]; cbn [nth]; auto. Qed.
Lemma R_skipn n ls ls' : Forall2 Rl ls ls' -> Forall2 Rl (skipn n ls) (skipn n ls').
Proof. intros H. revert n. induction H as [|l l' r r' H1 H2 IH]; intros [|n]; cbn [skipn]; auto. Qed.
(** The disk with CR LF instead of LF in every file *)
Definition crlf_disk (files : bytes -> option bytes) : bytes -> option bytes := fun p => option_map to_crlf (files p).
Lemma R_data_file files folder m s s' : Rs s s' -> Forall (fun l => ~ In CR l) (pending s) ->
  read_data_file F (crlf_disk files) folder m s' = read_data_file F files folder m s.
Proof.
  intros H Hc. unfold read_data_file, get_data_file.
  pose proof (R_goto_if (lit "ASCII_DATA_FILE") s s' ltac:(nocr) H) as E.
  pose proof (goto_if_suffix (lit "ASCII_DATA_FILE") s) as Hs.
  destruct (goto_if _ s) as [[l|] t], (goto_if _ s') as [[l'|] t']; try contradiction; [|reflexivity].
  destruct E as [El _]. specialize (Hs l t eq_refl) as [pre Hs]. rewrite Hs in Hc. apply Forall_app in Hc as [_ Hc]. inversion Hc as [|? ? Hl _]; subst.
  rewrite (R_data_name l l' Hl El). unfold crlf_disk. destruct (files _) as [data|]; [|reflexivity]. cbn [option_map].
  destruct (open_crlf data) as [D Dn]. rewrite <- Dn.
  assert (X : Rl (nth 1 (pending (open_text data)) (if nl (open_text data) then [] else nth 0 (pending (open_text data)) []))
                 (nth 1 (pending (open_text (to_crlf data))) (if nl (open_text data) then [] else nth 0 (pending (open_text (to_crlf data))) []))).
  { apply R_nth; [exact D|]. apply last_line. apply R_nth; [exact D|now left]. }
  rewrite (Rl_split _ _ X). destruct (Nat.ltb _ 4); [reflexivity|]. cbv zeta.
  apply R_foldM; [|now apply R_skipn]. intros b k k' HR. unfold vo_row. now rewrite (Rl_split k k').
Qed.
Lemma crlf_vo dist divn files folder text : ~ In CR text ->
  read_vo F dist divn (crlf_disk files) folder (to_crlf text) = read_vo F dist divn files folder text.
Proof.
  intros Hc. unfold read_vo. pose proof (R_goto_if (lit "GOCAD Voxet") _ _ ltac:(nocr) (open_crlf text)) as E. symmetry.
  pose proof (goto_if_suffix (lit "GOCAD Voxet") (open_text text)) as S0.
  destruct (goto_if _ (open_text text)) as [[k|]s0], (goto_if _ (open_text (to_crlf text))) as [[]s0']; try contradiction; [|reflexivity].
  specialize (S0 k s0 eq_refl). destruct E as [_ E]. apply res_rel_eq.
  assert (C0 : Forall (fun l => ~ In CR l) (pending s0)).
  { apply Forall_forall. intros l Hl. apply (lines_no_CR text); [assumption|]. destruct S0 as [pre S0]. rewrite S0. apply in_or_app. right. now right. }
  assert (K : forall a b, suffix b a -> Forall (fun l => ~ In CR l) a -> Forall (fun l => ~ In CR l) b).
  { intros x1 x2 [pre ->] Hf. now apply Forall_app in Hf. }
  eapply res_rel_bind_ok; [apply R_read_header; exact E|]. intros [n s] [n' s'] Q [En Es]. cbn [fst snd] in En, Es. subst n'.
  apply read_header_suffix in Q. cbn [snd] in Q. apply (K _ _ Q) in C0. clear Q.
  eapply res_rel_bind_ok; [apply R_read_CRS; exact Es|]. intros [c s1] [c' s1'] Q [Ec Es1]. cbn [fst snd] in Ec, Es1. subst c'.
  apply read_CRS_suffix in Q. cbn [snd] in Q. apply (K _ _ Q) in C0. clear Q.
  unfold initialize_grid, read_cells_number. rewrite !bind_assoc.
  Ltac axis K C0 Es := eapply res_rel_bind_ok; [apply R_goto_keyword; [nocr|exact Es]|];
    let l := fresh "l" in let s := fresh "s" in let l' := fresh "l" in let s' := fresh "s" in let Q := fresh "Q" in let El := fresh "El" in
    intros [l s] [l' s'] Q [El Es']; cbn [fst snd] in El, Es'; apply goto_keyword_suffix in Q; apply (K _ _ Q) in C0; inversion C0 as [|? ? _ C0']; subst; clear C0 Q;
    rename C0' into C0; clear Es; rename Es' into Es; rewrite ?(Rl_split l l') by assumption; rewrite ?(R_read_coord l l') by assumption; rewrite ?bind_assoc.
  axis K C0 Es1. same. intros o ? <-. rewrite !bind_assoc.
  axis K C0 Es1. same. intros u ? <-. rewrite !bind_assoc.
  axis K C0 Es1. same. intros v ? <-. rewrite !bind_assoc.
  axis K C0 Es1. same. intros w ? <-. rewrite !bind_assoc.
  axis K C0 Es1. 
  same. intros a ? <-. rewrite !bind_assoc. same. intros nx ? <-. rewrite !bind_assoc. same. intros b0 ? <-. rewrite !bind_assoc.
  same. intros ny ? <-. rewrite !bind_assoc. same. intros d ? <-. rewrite !bind_assoc. same. intros nz ? <-. cbn [bind].
  apply res_rel_eq. symmetry. now apply R_data_file.
Qed.

(** ** Corner-point grids *)
Lemma R_until_F l l' ls ls' : Rl l l' -> Forall2 Rl ls ls' -> res_rel (fun x y => Rl (fst x) (fst y) /\ Forall2 Rl (snd x) (snd y)) (until_F l ls) (until_F l' ls').
Proof.
  intros H H2. revert l l' H. induction H2 as [|k k' r r' K1 K2 IH]; intros l l' H; cbn [until_F];
    rewrite (Rl_contains l l') by (nocr || discriminate || assumption); destruct (contains l "F"); [split; cbn; auto|exact I|split; cbn; auto|now apply IH].
Qed.
Lemma R_read_dimensions s s' : Rs s s' -> res_rel Rvs (read_dimensions s) (read_dimensions s').
Proof.
  intros H. unfold read_dimensions. eapply res_rel_bind; [apply R_goto_keyword; [nocr|exact H]|].
  intros [l t] [l' t'] [El [Et En]]. cbn [fst snd] in *.
  eapply res_rel_bind; [apply R_until_F; eassumption|]. intros [k r] [k' r'] [Ek Er]. cbn [fst snd] in *.
  rewrite (Rl_split k k') by assumption. same. intros a ? <-. same. intros nx ? <-. same. intros b ? <-. same. intros ny ? <-.
  same. intros c ? <-. same. intros nz ? <-. split; [reflexivity|]. split; assumption.
Qed.
Lemma R_split_char c l : c <> CR -> forall cur, Forall2 Rl (split_char c cur l) (split_char c cur (l ++ [CR])).
Proof.
  intros Hc. induction l as [|d l IH]; intros cur; cbn [app split_char].
  - destruct (Ascii.eqb CR c) eqn:E; [apply Ascii.eqb_eq in E; congruence|]. constructor; [now right|constructor].
  - destruct (Ascii.eqb d c); [constructor; [now left|apply IH]|apply IH].
Qed.
Lemma split_char_hd c l : c <> CR -> In c l -> forall cur, front (split_char c cur (l ++ [CR])) = front (split_char c cur l).
Proof.
  intros Hc. induction l as [|d l IH]; intros Hi cur; [destruct Hi|]. cbn [app split_char].
  destruct (Ascii.eqb d c) eqn:E; [reflexivity|]. apply IH. destruct Hi as [->|Hi]; [|assumption]. rewrite Ascii.eqb_refl in E. discriminate.
Qed.
Lemma contains_one c l : contains l [c] = true -> In c l.
Proof.
  unfold contains. induction l as [|d l IH]; cbn [after_first]; [discriminate|].
  destruct (starts_with (d :: l) [c]) eqn:E; [|intros H; right; now apply IH].
  intros _. apply starts_with_split in E as [t E]. left. now injection E.
Qed.
Lemma R_include_line l l' m : Rl l l' -> include_line l' m = include_line l m.
Proof.
  intros H. unfold include_line. pose proof H as H'. destruct H as [-> | ->]; [reflexivity|].
  unfold include_token. rewrite (Rl_split l (l ++ [CR])) by (now right).
  apply R_foldM; [|apply R_split_char; discriminate]. intros b t t' HR.
  rewrite (Rl_contains t t') by (nocr || discriminate || assumption). destruct (contains t ".") eqn:E; [|reflexivity].
  destruct HR as [-> | ->]; [reflexivity|]. rewrite split_char_hd; [reflexivity|discriminate|now apply contains_one].
Qed.
Lemma R_includes b n : forall ls ls' bk bk' m, (List.length ls <= n)%nat -> Forall2 Rl ls ls' -> Forall2 Rl bk bk' ->
  res_rel Rv (includes b ls bk m) (includes b ls' bk' m).
Proof.
  induction n as [|n IH]; intros ls ls' bk bk' m L H Hb; destruct H as [|l l' r r' H1 H2]; try (cbn in L; lia); cbn [includes]; try (split; auto; fail).
  rewrite (Rl_starts l l') by (nocr || assumption). cbn in L. destruct (starts_with l "INCLUDE"); [|apply IH; [lia|assumption|assumption]].
  destruct H2 as [|k k' q q' K1 K2].
  - eapply res_rel_bind; [apply res_rel_eq; symmetry; apply R_include_line; now apply last_line|]. intros m' ? <-. split; [reflexivity|constructor].
  - rewrite (R_include_line k k') by assumption. same. intros m' ? <-. apply IH; [cbn in L; lia|assumption|assumption].
Qed.
Lemma R_pillars_loop b cap n : forall cur cur' ls ls' acc, (List.length ls <= n)%nat -> Rl cur cur' -> Forall2 Rl ls ls' ->
  res_rel Rv (pillars_loop F b cap cur ls acc) (pillars_loop F b cap cur' ls' acc).
Proof.
  induction n as [|n IH]; intros cur cur' ls ls' acc L Hc H; destruct H as [|l l' r r' H1 H2]; try (cbn in L; lia); cbn [pillars_loop];
    rewrite (Rl_starts cur cur'), (Rl_split cur cur') by (nocr || assumption); (destruct (starts_with cur "/"); [split; [reflexivity|cbn [snd]; auto using Forall2_cons, Forall2_nil]|]);
    destruct (string_split cur) as [|t1 [|t2 [|t3 [|t4 [|t5 [|t6 [|t7 ts]]]]]]]; try exact I; try reflexivity.
  1,2,3,4: same; intros vs ? <-; same; intros t ? <-; try exact I.
  1,2: same; intros bt ? <-; same; intros acc' ? <-; destruct b; exact I.
  - apply IH; [cbn in L; lia|assumption|assumption].
  - same. intros vs ? <-. same. intros t ? <-. rewrite (Rl_split l l') by assumption.
    same. intros x ? <-. same. intros vx ? <-. same. intros y ? <-. same. intros vy ? <-. same. intros z ? <-. same. intros vz ? <-.
    same. intros acc' ? <-. destruct H2 as [|k k' q q' K1 K2]; [destruct b; exact I|]. apply IH; [cbn in L; lia|assumption|assumption].
  - same. intros vs ? <-. same. intros t ? <-. same. intros bt ? <-. same. intros acc' ? <-. apply IH; [cbn in L; lia|assumption|assumption].
Qed.
Lemma R_read_pillars nx ny s s' : Rs s s' -> res_rel Rvs (read_pillars F nx ny s) (read_pillars F nx ny s').
Proof.
  intros H. unfold read_pillars. eapply res_rel_bind; [apply R_goto_keyword; [nocr|exact H]|].
  intros [l t] [l' t'] [El Et]. cbn [fst snd] in *.
  pose proof (R_getline l l' t t' El Et) as G. destruct (getline l t) as [[g x] u], (getline l' t') as [[g' x'] u'].
  destruct G as (_ & G1 & [G2 G3]). rewrite <- G3.
  eapply res_rel_bind; [eapply R_pillars_loop; [apply Nat.le_refl|exact G1|exact G2]|]. intros [a r] [a' r'] [E1 E2]. cbn [fst snd] in *. subst a'.
  split; [reflexivity|split; [assumption|reflexivity]].
Qed.
Lemma R_depths_loop b cap cur cur' ls ls' acc : Rl cur cur' -> Forall2 Rl ls ls' ->
  res_rel Rv (depths_loop F b cap cur ls acc) (depths_loop F b cap cur' ls' acc).
Proof.
  intros Hc H. revert cur cur' Hc acc. induction H as [|l l' r r' H1 H2 IH]; intros cur cur' Hc acc; cbn [depths_loop];
    rewrite (Rl_starts cur cur'), (Rl_split cur cur') by (nocr || assumption); (destruct (starts_with cur "/"); [split; [reflexivity|cbn [snd]; auto using Forall2_cons, Forall2_nil]|]); same; intros acc' ? <-.
  - destruct (string_split cur); [exact I|destruct b; exact I].
  - now apply IH.
Qed.
Lemma R_read_depths nx ny nz s s' : Rs s s' -> res_rel Rvs (read_depths F nx ny nz s) (read_depths F nx ny nz s').
Proof.
  intros H. unfold read_depths. eapply res_rel_bind; [apply R_goto_keyword; [nocr|exact H]|].
  intros [l t] [l' t'] [El Et]. cbn [fst snd] in *.
  pose proof (R_getline l l' t t' El Et) as G. destruct (getline l t) as [[g x] u], (getline l' t') as [[g' x'] u'].
  destruct G as (_ & G1 & [G2 G3]). rewrite <- G3.
  eapply res_rel_bind; [eapply R_depths_loop; [exact G1|exact G2]|]. intros [a r] [a' r'] [E1 E2]. cbn [fst snd] in *. subst a'.
  split; [reflexivity|split; [assumption|reflexivity]].
Qed.
Lemma R_other_file files f : Rs (other_file files f) (other_file (crlf_disk files) f).
Proof. unfold other_file, crlf_disk. destruct (files f); cbn [option_map]; [apply open_crlf|]. split; [constructor|reflexivity]. Qed.
Lemma crlf_grdecl A coloc files text : read_grdecl F A coloc (crlf_disk files) (to_crlf text) = read_grdecl F A coloc files text.
Proof.
  symmetry. unfold read_grdecl. apply res_rel_eq.
  eapply res_rel_bind; [apply R_read_dimensions; apply open_crlf|]. intros [[[nx ny] nz] s] [[[nx' ny'] nz'] s'] [E [Es En]]. cbn [fst snd] in E, Es, En.
  injection E as <- <- <-. rewrite <- En.
  eapply res_rel_bind; [eapply R_includes; [apply Nat.le_refl|exact Es|exact Es]|]. intros [m r] [m' r'] [Em Er]. cbn [fst snd] in Em, Er. subst m'.
  assert (R0 : Rs (mkStream r (nl s)) (mkStream r' (nl s))) by now split.
  eapply res_rel_bind with (P := Rvs).
  { destruct (lookup "COORD" m) as [f|]; [|now apply R_read_pillars].
    eapply res_rel_bind; [apply R_read_pillars; apply R_other_file|]. intros [p t] [p' t'] [E1 _]. cbn [fst snd] in *. subst p'. now split. }
  intros [p t] [p' t'] [E1 E2]. cbn [fst snd] in *. subst p'.
  eapply res_rel_bind with (P := Rvs).
  { destruct (lookup "ZCORN" m) as [f|]; [|now apply R_read_depths].
    eapply res_rel_bind; [apply R_read_depths; apply R_other_file|]. intros [q w] [q' w'] [E3 _]. cbn [fst snd] in *. subst q'. now split. }
  intros [q w] [q' w'] [E3 _]. cbn [fst snd] in *. subst q'. apply res_rel_refl. reflexivity.
Qed.
End All.

(** C119.  For every text with LF line ends, the text with CR LF has the same outcome: same mesh or model, same
    exception, same failure.  The files read besides (data file of a Voxet, included files of a grid) have CR LF too. *)
Theorem C119_crlf : forall (F : Num) (text : bytes),
  (* wells *)
  read_wl F (to_crlf text) = read_wl F text /\
  read_dev F (to_crlf text) = read_dev F text /\
  (forall name, read_well F name (to_crlf text) = read_well F name text) /\
  (* Voxets and corner-point grids *)
  (forall dist divn files folder, ~ In CR text ->
     read_vo F dist divn (crlf_disk files) folder (to_crlf text) = read_vo F dist divn files folder text) /\
  (forall A coloc files, read_grdecl F A coloc (crlf_disk files) (to_crlf text) = read_grdecl F A coloc files text) /\
  (* structural models and solids *)
  read_ml F (to_crlf text) = read_ml F text /\
  read_lso F (to_crlf text) = read_lso F text /\
  read_strati F (to_crlf text) = read_strati F text.
Proof.
  intros F text. split; [apply crlf_wl|]. split; [apply crlf_dev|]. split; [intros; apply crlf_well|]. split; [intros; now apply crlf_vo|].
  split; [intros; apply crlf_grdecl|]. split; [apply crlf_ml|]. split; [apply crlf_lso|]. unfold read_strati. now rewrite crlf_lso.
Qed.
Print Assumptions C119_crlf.

(** The answers of is_loadable do not change either, for any keyword of one line. *)
Theorem C119_loadable : forall text,
  (forall kw, ~ In CR kw -> loadable kw (to_crlf text) = loadable kw text) /\
  stack_loadable (to_crlf text) = stack_loadable text /\
  strati_loadable (to_crlf text) = strati_loadable text.
Proof.
  intros text. split; [intros; now apply loadable_crlf|]. split; [apply loadable_crlf; nocr|].
  unfold strati_loadable. rewrite loadable_crlf by nocr. f_equal.
  pose proof (R_goto_if (lit "PROPERTIES") _ _ ltac:(nocr) (open_crlf text)) as E.
  destruct (goto_if _ (open_text text)) as [[l|] t], (goto_if _ (open_text (to_crlf text))) as [[l'|] t']; try contradiction; [|reflexivity].
  destruct E as [E _]. f_equal; apply Rl_contains; solve [nocr | discriminate | assumption].
Qed.
Print Assumptions C119_loadable.

(** The data file announced for a Voxet does change: its name ends with a CR and the file is said to be missing. *)
Theorem C119_announced_refuted : exists files text, ~ In CR text /\
  vo_additional_files files text = [(lit "box.data", true)] /\
  vo_additional_files (crlf_disk files) (to_crlf text) = [(lit "box.data" ++ [CR], false)].
Proof.
  exists (fun f => if beq f "box.data" then Some (unlines [lit "*"]) else None), (unlines (map lit ["GOCAD Voxet 1"; "ASCII_DATA_FILE box.data"])).
  split; [|split; vm_compute; reflexivity]. apply no_CR_ok. vm_compute. reflexivity.
Qed.
Print Assumptions C119_announced_refuted.

(** Files of each kind with CR LF are loaded. *)
Example C119_example :
  mesh_is zz_eqb (read_wl ExNum (to_crlf (unlines ex_wl))) (Some (lit "my well"))
    [(100, 200, -7); (101, 202, -10); (103, 204, -20)] [(0, 1); (1, 2)] [] = true /\
  vo_is (read_vo ExNum ex_dist Z.div (crlf_disk (PropsVo.ex_files ["1 2 0 3 4"])) "dir/"
           (to_crlf (unlines (ex_vo "AXIS_U 4 0 0" "AXIS_V 0 9 0" "AXIS_N 2 3 1"))))
    (0, 0, 0) (2, 3, 1) (2, 3, 5)
    [(lit "por", [[0]; [0]; [0]; [0]; [0]; [3]]); (lit "perm", [[0]; [0]; [0]; [0]; [0]; [4]])] = true /\
  ~ In CR (unlines (ex_vo "AXIS_U 4 0 0" "AXIS_V 0 9 0" "AXIS_N 2 3 1")) /\
  match read_grdecl ExNum (mkArith ExNum Z.sub Z.mul (fun a b => a) 1) no_colocation (crlf_disk PropsGrdecl.ex_files) (to_crlf (unlines ex_main)) with
  | Ok (_, hexas) => leqb (leqb Z.eqb) hexas [[0; 1; 2; 3; 4; 5; 6; 7]]
  | _ => false
  end = true /\
  match read_ml ExNum (to_crlf (unlines ex_ml)) with Ok o => leqb beq (map ci_name (o_colls o)) (map lit ["h one"; "box"; "undefined boundary"]) | _ => false end = true /\
  match read_lso ExNum (to_crlf (unlines ex_lso)) with Ok o => Nat.eqb (List.length (i_blocks o)) 2 | _ => false end = true.
Proof.
  split; [vm_compute; reflexivity|]. split; [vm_compute; reflexivity|]. split; [apply no_CR_ok; vm_compute; reflexivity|].
  split; [vm_compute; reflexivity|]. split; vm_compute; reflexivity.
Qed.
