(** * Files made of several objects. *)
From Coq Require Import ZArith List Lia Bool Ascii String.
From Verif Require Import Base Text TextFacts GocadModel MeshModel TsModel Spec GocadFacts TsFacts CrlfFacts StreamFacts.
Import ListNotations.
Local Open Scope string_scope.
Local Open Scope list_scope.
Local Open Scope Z_scope.

(** ** What has been read does not depend on what follows *)
Section Local.
Context (more : list bytes) (b' : bool).
Definition ext (s : istream) : istream := mkStream (pending s ++ more) b'.

Lemma scan_ext p ls l r : scan p ls = Some (l, r) -> scan p (ls ++ more) = Some (l, r ++ more).
Proof.
  induction ls as [|x ls IH]; cbn [scan app]; [discriminate|].
  destruct (p x); [|exact IH]. intros H. now injection H as <- <-.
Qed.
Lemma scan_none_ext p ls : scan p ls = None -> scan p (ls ++ more) = scan p more.
Proof.
  induction ls as [|x ls IH]; cbn [scan app]; [reflexivity|]. destruct (p x); [discriminate|exact IH].
Qed.
Lemma goto_if_ext kw s l s' : goto_if kw s = (Some l, s') -> goto_if kw (ext s) = (Some l, ext s').
Proof.
  unfold goto_if. destruct (scan _ (pending s)) as [[x r]|] eqn:E; [|discriminate].
  intros H. injection H as <- <-. cbn [ext pending]. rewrite (scan_ext _ _ _ _ E). reflexivity.
Qed.
Lemma goto_keyword_ext kw s l s' : goto_keyword kw s = Ok (l, s') -> goto_keyword kw (ext s) = Ok (l, ext s').
Proof.
  unfold goto_keyword. destruct (goto_if kw s) as [[x|] t] eqn:E; [|discriminate].
  intros H. injection H as <- <-. now rewrite (goto_if_ext _ _ _ _ E).
Qed.
Lemma goto_keywords_ext kw s l s' : goto_keywords kw s = Ok (l, s') -> goto_keywords kw (ext s) = Ok (l, ext s').
Proof.
  unfold goto_keywords. destruct (scan _ (pending s)) as [[x r]|] eqn:E; [|discriminate].
  intros H. injection H as <- <-. cbn [ext pending]. rewrite (scan_ext _ _ _ _ E). reflexivity.
Qed.
Lemma next_if_ext kw s o s' : pending s' <> [] -> next_if kw s = (o, s') -> next_if kw (ext s) = (o, ext s').
Proof.
  unfold next_if. destruct (pending s) as [|l r] eqn:E; intros Hn H; [injection H as <- <-; now destruct Hn|].
  unfold ext at 1. rewrite E. cbn [pending app nl]. destruct (starts_with l kw); injection H as <- <-.
  - reflexivity.
  - unfold ext. now rewrite E.
Qed.
Lemma check_keyword_ext kw s s' : check_keyword kw s = Ok s' -> check_keyword kw (ext s) = Ok (ext s').
Proof.
  unfold check_keyword. destruct (pending s) as [|l r] eqn:E; [discriminate|].
  unfold ext at 1. rewrite E. cbn [pending app nl]. destruct (starts_with l kw); [|discriminate].
  intros H. now injection H as <-.
Qed.
Lemma header_loop_ext n ls x : header_loop n ls = Ok x -> header_loop n (ls ++ more) = Ok (fst x, snd x ++ more).
Proof.
  revert n. induction ls as [|l r IH]; intros n; cbn [header_loop app]; [discriminate|].
  destruct (starts_with l _); [intros H; now injection H as <-|]. destruct (after_first _ l); apply IH.
Qed.
Lemma read_header_ext s x : read_header s = Ok x -> read_header (ext s) = Ok (fst x, ext (snd x)).
Proof.
  unfold read_header. intros H. apply bind_ok in H as [t [H1 H]]. apply bind_ok in H as [[n r] [H2 H]].
  injection H as <-. rewrite (check_keyword_ext _ _ _ H1). cbn [bind ext pending].
  rewrite (header_loop_ext _ _ _ H2). reflexivity.
Qed.
Lemma crs_loop_ext c ls x : crs_loop c ls = Ok x -> crs_loop c (ls ++ more) = Ok (fst x, snd x ++ more).
Proof.
  revert c. induction ls as [|l r IH]; intros c; cbn [crs_loop app]; [discriminate|].
  destruct (starts_with l _); [intros H; now injection H as <-|].
  intros H. apply bind_ok in H as [c' [H1 H]]. rewrite H1. cbn [bind]. now apply IH.
Qed.
Lemma read_CRS_ext s x : pending (snd x) <> [] -> read_CRS s = Ok x -> read_CRS (ext s) = Ok (fst x, ext (snd x)).
Proof.
  unfold read_CRS. intros Hn. destruct (next_if _ s) as [[l|] t] eqn:E; intros H.
  - apply bind_ok in H as [[c r] [H2 H]]. injection H as <-. cbn [snd pending] in Hn.
    assert (Ht : pending t <> []).
    { apply crs_loop_suffix in H2. destruct H2 as [p Hp]. rewrite Hp. cbn [snd].
      destruct p; cbn [app]; [assumption|discriminate]. }
    rewrite (next_if_ext _ _ _ _ Ht E). cbn [ext pending]. rewrite (crs_loop_ext _ _ _ H2). reflexivity.
  - injection H as <-. cbn [snd] in Hn. now rewrite (next_if_ext _ _ _ _ Hn E).
Qed.
Lemma kw_one_string_ext kw n s x : kw_one_string kw n s = Ok x -> kw_one_string kw n (ext s) = Ok (fst x, ext (snd x)).
Proof.
  unfold kw_one_string. intros H. apply bind_ok in H as [[l t] [H1 H]]. rewrite (goto_keyword_ext _ _ _ _ H1).
  cbn [bind] in *. apply bind_ok in H as [sl [H2 H]]. apply bind_ok in H as [ds [H3 H]]. injection H as <-.
  rewrite H2. cbn [bind]. rewrite H3. reflexivity.
Qed.
Lemma kw_two_strings_ext kw n s x : kw_two_strings kw n s = Ok x -> kw_two_strings kw n (ext s) = Ok (fst x, ext (snd x)).
Proof.
  unfold kw_two_strings. intros H. apply bind_ok in H as [[l t] [H1 H]]. rewrite (goto_keyword_ext _ _ _ _ H1).
  cbn [bind] in *. apply bind_ok in H as [ds [H3 H]]. injection H as <-. rewrite H3. reflexivity.
Qed.
Lemma kw_one_double_ext F kw n s x : kw_one_double F kw n s = Ok x -> kw_one_double F kw n (ext s) = Ok (fst x, ext (snd x)).
Proof.
  unfold kw_one_double. intros H. apply bind_ok in H as [[l t] [H1 H]]. rewrite (goto_keyword_ext _ _ _ _ H1).
  cbn [bind] in *. apply bind_ok in H as [ds [H3 H]]. injection H as <-. rewrite H3. reflexivity.
Qed.
Lemma kw_one_index_ext kw n s x : kw_one_index kw n s = Ok x -> kw_one_index kw n (ext s) = Ok (fst x, ext (snd x)).
Proof.
  unfold kw_one_index. intros H. apply bind_ok in H as [[l t] [H1 H]]. rewrite (goto_keyword_ext _ _ _ _ H1).
  cbn [bind] in *. apply bind_ok in H as [ds [H3 H]]. injection H as <-. rewrite H3. reflexivity.
Qed.
Lemma suffix_nonnil (a b : list bytes) : suffix b a -> b <> [] -> a <> [].
Proof. intros [p ->] H. destruct p; [assumption|discriminate]. Qed.
Lemma read_prop_header_ext F pre s x : pending (snd x) <> [] -> read_prop_header F pre s = Ok x ->
  read_prop_header F pre (ext s) = Ok (fst x, ext (snd x)).
Proof.
  unfold read_prop_header. intros Hn. destruct (next_if _ s) as [[l|] t] eqn:E; intros H.
  2:{ injection H as <-. now rewrite (next_if_ext _ _ _ _ Hn E). }
  apply bind_ok in H as [sl [H1 H]]. cbn zeta in H.
  destruct (Nat.eqb _ 0) eqn:En.
  { injection H as <-. rewrite (next_if_ext _ _ _ _ Hn E). rewrite H1. cbn [bind]. now rewrite En. }
  apply bind_ok in H as [names [H2 H]].
  apply bind_ok in H as [[v1 s1] [K1 H]]. apply bind_ok in H as [[v2 s2] [K2 H]].
  apply bind_ok in H as [[v3 s3] [K3 H]]. apply bind_ok in H as [[v4 s4] [K4 H]].
  apply bind_ok in H as [[v5 s5] [K5 H]]. apply bind_ok in H as [[v6 s6] [K6 H]].
  apply bind_ok in H as [[v7 s7] [K7 H]]. injection H as <-. cbn [fst snd] in *.
  assert (Ht : pending t <> []).
  { eapply suffix_nonnil; [|exact Hn].
    apply kw_two_strings_suffix in K1. apply kw_one_double_suffix in K2. apply kw_one_string_suffix in K3.
    apply kw_one_string_suffix in K4. apply kw_two_strings_suffix in K5. apply kw_one_index_suffix in K6.
    apply kw_one_string_suffix in K7. cbn [snd] in *.
    repeat (eapply suffix_trans; [eassumption|]). apply suffix_refl. }
  rewrite (next_if_ext _ _ _ _ Ht E), H1. cbn [bind]. rewrite En, H2. cbn [bind].
  rewrite (kw_two_strings_ext _ _ _ _ K1). cbn [bind fst snd].
  rewrite (kw_one_double_ext _ _ _ _ _ K2). cbn [bind fst snd].
  rewrite (kw_one_string_ext _ _ _ _ K3). cbn [bind fst snd].
  rewrite (kw_one_string_ext _ _ _ _ K4). cbn [bind fst snd].
  rewrite (kw_two_strings_ext _ _ _ _ K5). cbn [bind fst snd].
  rewrite (kw_one_index_ext _ _ _ _ K6). cbn [bind fst snd].
  rewrite (kw_one_string_ext _ _ _ _ K7). reflexivity.
Qed.
Lemma tfaces_loop_ext F ts ls x : tfaces_loop F ts ls = Ok x -> tfaces_loop F ts (ls ++ more) = Ok (fst x, snd x ++ more).
Proof.
  revert ts. induction ls as [|l r IH]; intros ts; cbn [tfaces_loop app]; [discriminate|].
  intros H. apply bind_ok in H as [[ts' st] [H1 H]]. rewrite H1. cbn [bind].
  destruct st; [now injection H as <-|now apply IH].
Qed.
Lemma vset_loop_ext F ts ls x : vset_loop F ts ls = Ok x -> vset_loop F ts (ls ++ more) = Ok (fst x, snd x ++ more).
Proof.
  revert ts. induction ls as [|l r IH]; intros ts; cbn [vset_loop app]; [discriminate|].
  intros H. apply bind_ok in H as [[ts' st] [H1 H]]. rewrite H1. cbn [bind].
  destruct st; [now injection H as <-|now apply IH].
Qed.
Lemma goto_nonnil kw s l s' : goto_keyword kw s = Ok (l, s') -> pending s <> [].
Proof. intros H. apply goto_keyword_suffix in H. eapply suffix_nonnil; [exact H|discriminate]. Qed.
Lemma gotos_nonnil kw s l s' : goto_keywords kw s = Ok (l, s') -> pending s <> [].
Proof. intros H. apply goto_keywords_suffix in H. eapply suffix_nonnil; [exact H|discriminate]. Qed.
Lemma read_tsurf_ext F s ts s' : read_tsurf F s = Ok (Some ts, s') -> read_tsurf F (ext s) = Ok (Some ts, ext s').
Proof.
  unfold read_tsurf. destruct (goto_if _ s) as [[l|] t] eqn:E; [|discriminate]. intros H.
  rewrite (goto_if_ext _ _ _ _ E).
  apply bind_ok in H as [[n s1] [H1 H]]. apply bind_ok in H as [[c s2] [H2 H]].
  apply bind_ok in H as [[p s3] [H3 H]]. cbn zeta in H. apply bind_ok in H as [[ts1 s4] [H4 H]].
  injection H as <- <-. rewrite (read_header_ext _ _ H1). cbn [bind fst snd].
  unfold read_tfaces in H4. apply bind_ok in H4 as [[x s5] [H5 H4]].
  pose proof (goto_nonnil _ _ _ _ H5) as N3.
  assert (N2 : pending s2 <> []).
  { eapply suffix_nonnil; [|exact N3]. now apply read_prop_header_suffix in H3. }
  rewrite (read_CRS_ext _ (c, s2) N2 H2). cbn [bind fst snd]. rewrite (read_prop_header_ext _ _ _ (p, s3) N3 H3).
  cbn [bind fst snd]. unfold read_tfaces. rewrite (goto_keyword_ext _ _ _ _ H5). cbn [bind].
  apply bind_ok in H4 as [[ts2 r] [H6 H4]]. injection H4 as <- <-. cbn [ext pending].
  rewrite (tfaces_loop_ext _ _ _ _ H6). reflexivity.
Qed.
Lemma read_vs_points_ext F s ts s' : read_vs_points F s = Ok (Some ts, s') -> read_vs_points F (ext s) = Ok (Some ts, ext s').
Proof.
  unfold read_vs_points. destruct (goto_if _ s) as [[l|] t] eqn:E; [|discriminate]. intros H.
  rewrite (goto_if_ext _ _ _ _ E).
  apply bind_ok in H as [[n s1] [H1 H]]. apply bind_ok in H as [[c s2] [H2 H]].
  apply bind_ok in H as [[p s3] [H3 H]]. cbn zeta in H. apply bind_ok in H as [[ts1 s4] [H4 H]].
  injection H as <- <-. rewrite (read_header_ext _ _ H1). cbn [bind fst snd].
  unfold read_VSet_vertices in H4. apply bind_ok in H4 as [[x s5] [H5 H4]].
  pose proof (gotos_nonnil _ _ _ _ H5) as N3.
  assert (N2 : pending s2 <> []).
  { eapply suffix_nonnil; [|exact N3]. now apply read_prop_header_suffix in H3. }
  rewrite (read_CRS_ext _ (c, s2) N2 H2). cbn [bind fst snd]. rewrite (read_prop_header_ext _ _ _ (p, s3) N3 H3).
  cbn [bind fst snd]. unfold read_VSet_vertices. rewrite (goto_keywords_ext _ _ _ _ H5). cbn [bind].
  apply bind_ok in H4 as [[ts2 r] [H6 H4]]. injection H4 as <- <-. cbn [ext pending].
  change (x :: pending s5 ++ more) with ((x :: pending s5) ++ more).
  rewrite (vset_loop_ext _ _ _ _ H6). reflexivity.
Qed.
End Local.

(** Reading two files put one after the other. *)
Lemma read_ts_loop_app F f1 (m m1 : mesh F tri) s more b' :
  read_ts_loop f1 m s = Ok m1 ->
  forall f, (List.length (pending s ++ more) < f)%nat ->
  read_ts_loop f m (ext more b' s) = read_ts_loop (S (List.length more)) m1 (mkStream more b').
Proof.
  revert m s. induction f1 as [|f1 IH]; intros m s H f Hf; [discriminate|].
  cbn [read_ts_loop] in H. destruct (read_tsurf F s) as [[[ts|] s1]| | |] eqn:E; cbn [bind] in H; try discriminate.
  - destruct f as [|f]; [lia|]. cbn [read_ts_loop]. rewrite (read_tsurf_ext more b' _ _ _ _ E). cbn [bind].
    apply bind_ok in H as [m2 [H1 H]]. rewrite H1. cbn [bind]. apply IH; [assumption|].
    apply read_tsurf_suffix in E as [l E]. apply (suffix_strict l _ _ tt) in E.
    rewrite app_length in *. lia.
  - injection H as <-. unfold read_tsurf in E. destruct (goto_if _ s) as [[l|] t] eqn:Eg.
    { exfalso. cbn [bind] in E. repeat (apply bind_ok in E as [[? ?] [_ E]]). discriminate. }
    rewrite (read_ts_loop_fuel F f (S f)) by (cbn [ext pending]; lia).
    rewrite (read_ts_loop_fuel F (S (List.length more)) (S f)) by (cbn [pending]; rewrite ?app_length in Hf; lia).
    cbn [read_ts_loop]. unfold read_tsurf.
    assert (Hs : scan (fun l => starts_with l (lit "GOCAD TSurf")) (pending s) = None).
    { unfold goto_if in Eg. destruct (scan _ _) as [[? ?]|]; [discriminate|reflexivity]. }
    unfold goto_if. cbn [ext pending nl]. rewrite (scan_none_ext more _ _ Hs).
    destruct (scan _ more) as [[? ?]|]; reflexivity.
Qed.

(** ** Well-formed meshes *)
Section Wf.
Context (F : Num).
Definition wf_attrs {C} (m : mesh F C) : Prop :=
  Forall (fun na => List.length (a_vals (snd na)) = List.length (m_points m)) (m_attrs m).
Definition cell_in (n : Z) (t : tri) : Prop :=
  let '(a, b, c) := t in 0 <= a < n /\ 0 <= b < n /\ 0 <= c < n.
Definition wf_cells (m : mesh F tri) : Prop := Forall (cell_in (nb_vertices m)) (m_cells m).
Lemma create_points_fields {C} ps (m : mesh F C) :
  m_name (create_points ps m) = m_name m /\ m_points (create_points ps m) = m_points m ++ ps /\
  m_cells (create_points ps m) = m_cells m.
Proof.
  unfold create_points. revert m. induction ps as [|p r IH]; intros m; cbn [fold_left].
  - now rewrite app_nil_r.
  - destruct (IH (create_point m p)) as [H1 [H2 H3]]. rewrite H1, H2, H3. cbn [create_point m_name m_points m_cells].
    now rewrite <- app_assoc.
Qed.
Lemma create_points_wf {C} ps (m : mesh F C) : wf_attrs m -> wf_attrs (create_points ps m).
Proof.
  unfold create_points. revert m. induction ps as [|p r IH]; intros m H; [exact H|]. cbn [fold_left]. apply IH.
  unfold wf_attrs, create_point. cbn [m_attrs m_points]. apply Forall_map. eapply Forall_impl; [|exact H].
  intros [n a] Ha. cbn [fst snd a_vals] in *. rewrite !app_length. cbn [List.length]. lia.
Qed.
Lemma set_name_fields {C} n (m : mesh F C) : m_points (set_name n m) = m_points m /\
  m_cells (set_name n m) = m_cells m /\ m_attrs (set_name n m) = m_attrs m /\
  m_name (set_name n m) = match n with Some x => Some x | None => m_name m end.
Proof. destruct n; cbn; auto. Qed.
Lemma fill_attr_length {V} (vals : list V) e d mp pt n a a' : fill_attr vals e d mp pt n a = Ok a' ->
  List.length a' = List.length a.
Proof.
  revert pt a. induction n as [|n IH]; intros pt a H; cbn [fill_attr] in H; [now injection H as <-|].
  apply bind_ok in H as [k [_ H]]. apply bind_ok in H as [row [_ H]]. apply bind_ok in H as [a2 [Ha H]].
  apply IH in H. rewrite H. unfold setz in Ha. destruct (_ && _); [|discriminate]. injection Ha as <-. apply upd_length.
Qed.
Lemma find_attr_in {V} n (l : list (bytes * attr V)) a : find_attr n l = Some a -> exists n', In (n', a) l.
Proof.
  unfold find_attr. destruct (find _ l) as [[n' a']|] eqn:E; [|discriminate]. intros H. injection H as <-.
  apply find_some in E as [E _]. now exists n'.
Qed.
Lemma find_or_create_wf {C} (m : mesh F C) n e d a : wf_attrs m -> find_or_create m n e d = Ok a ->
  List.length (a_vals a) = List.length (m_points m).
Proof.
  intros Hw. unfold find_or_create. destruct (beq n _); [discriminate|]. cbn zeta.
  destruct (find_attr n (m_attrs m)) as [b|] eqn:E; intros H.
  - destruct (_ =? _); [|discriminate]. injection H as <-. apply find_attr_in in E as [n' E].
    unfold wf_attrs in Hw. rewrite Forall_forall in Hw. now apply (Hw _ E).
  - injection H as <-. cbn [a_vals]. apply map_length.
Qed.
(** Objects without properties leave the attributes of the earlier vertices alone. *)
Definition extends (l l' : list (bytes * attr (num F))) : Prop :=
  Forall2 (fun a b => fst b = fst a /\ a_type (snd b) = a_type (snd a) /\ a_def (snd b) = a_def (snd a) /\
     exists k, a_vals (snd b) = a_vals (snd a) ++ repeat (a_def (snd a)) k) l l'.
Lemma extends_refl l : extends l l.
Proof. unfold extends. induction l; constructor; auto. repeat split. exists 0%nat. cbn. now rewrite app_nil_r. Qed.
Lemma extends_trans a b c : extends a b -> extends b c -> extends a c.
Proof.
  unfold extends. intros H. revert c. induction H as [|x y r r' H1 H2 IH]; intros c Hc; inversion Hc; subst; constructor.
  - destruct H1 as [A1 [A2 [A3 [k A4]]]].
    match goal with H : fst ?z = fst y /\ _ |- _ => destruct H as [B1 [B2 [B3 [k' B4]]]] end.
    repeat split; try congruence. exists (k + k')%nat. rewrite B4, A4, A3, repeat_app. now rewrite app_assoc.
  - now apply IH.
Qed.
Lemma create_points_extends {C} ps (m : mesh F C) : extends (m_attrs m) (m_attrs (create_points ps m)).
Proof.
  unfold create_points. revert m. induction ps as [|p r IH]; intros m; cbn [fold_left]; [apply extends_refl|].
  eapply extends_trans; [|apply IH]. unfold create_point, extends. cbn [m_attrs].
  induction (m_attrs m) as [|x l IHl]; cbn [map]; constructor; auto. cbn. repeat split. now exists 1%nat.
Qed.
(** The type of the attribute of a name. *)
Definition kind (l : list (bytes * attr (num F))) (n : bytes) : option Z := option_map a_type (find_attr n l).
Definition agree (l l' : list (bytes * attr (num F))) : Prop :=
  forall n t t', kind l n = Some t -> kind l' n = Some t' -> t = t'.
Lemma kind_replace n a l p : kind (replace_attr n a l) p = if beq n p then Some (a_type a) else kind l p.
Proof.
  unfold kind, find_attr. induction l as [|[k b] r IH]; cbn [replace_attr find fst].
  - destruct (beq n p); reflexivity.
  - destruct (beq k n) eqn:E; cbn [find fst].
    + apply beq_eq in E. subst k. destruct (beq n p); reflexivity.
    + destruct (beq k p) eqn:E2; [|exact IH]. destruct (beq n p) eqn:E3; [|reflexivity].
      apply beq_eq in E2, E3. subst k n. rewrite beq_refl in E. discriminate.
Qed.
Lemma extends_kind l l' p : extends l l' -> kind l' p = kind l p.
Proof.
  unfold extends, kind, find_attr. induction 1 as [|a b r r' [A1 [A2 _]] H IH]; [reflexivity|]. cbn [find]. rewrite A1.
  destruct (beq (fst a) p); [cbn; congruence|exact IH].
Qed.
Lemma find_or_create_kind {C} (m : mesh F C) n e d a : find_or_create m n e d = Ok a ->
  a_type a = attr_type e /\ (forall t, kind (m_attrs m) n = Some t -> t = attr_type e).
Proof.
  unfold find_or_create, kind. destruct (beq n _); [discriminate|]. cbn zeta. destruct (find_attr n (m_attrs m)) as [b|].
  - destruct (Z.eqb_spec (a_type b) (attr_type e)) as [Et|]; [|discriminate]. intros H. injection H as <-.
    split; [exact Et|]. cbn. congruence.
  - intros H. injection H as <-. split; [reflexivity|discriminate].
Qed.
Lemma replace_attr_wf {V} k n (a : attr V) l : List.length (a_vals a) = k ->
  Forall (fun na => List.length (a_vals (snd na)) = k) l ->
  Forall (fun na => List.length (a_vals (snd na)) = k) (replace_attr n a l).
Proof.
  intros Ha H. induction H as [|[n' b] r H1 H2 IH]; cbn [replace_attr].
  - repeat constructor. assumption.
  - destruct (beq n' n); constructor; auto.
Qed.
Lemma create_attributes_loop_fields {C} ns es ds vs nb mp (m m' : mesh F C) :
  create_attributes_loop ns es ds vs nb mp m = Ok m' ->
  m_name m' = m_name m /\ m_points m' = m_points m /\ m_cells m' = m_cells m /\ (wf_attrs m -> wf_attrs m').
Proof.
  revert es ds vs m. induction ns as [|n ns IH]; intros es ds vs m H; cbn [create_attributes_loop] in H.
  { injection H as <-. auto. }
  destruct es as [|e es], ds as [|d ds], vs as [|v vs]; try discriminate. cbn zeta in H.
  apply bind_ok in H as [a [H1 H]]. apply bind_ok in H as [vals [H2 H]]. apply IH in H as [E1 [E2 [E3 E4]]].
  unfold set_attr_list in *. cbn [m_name m_points m_cells m_attrs] in *.
  split; [assumption|]. split; [assumption|]. split; [assumption|]. intros Hw. apply E4.
  unfold wf_attrs. cbn [m_attrs m_points]. apply replace_attr_wf; [|exact Hw].
  cbn [a_vals]. rewrite (fill_attr_length _ _ _ _ _ _ _ _ H2). eapply find_or_create_wf; eassumption.
Qed.
Lemma create_attributes_kinds {C} ns es ds vs nb mp (m m' : mesh F C) :
  create_attributes_loop ns es ds vs nb mp m = Ok m' ->
  forall p t, kind (m_attrs m) p = Some t -> kind (m_attrs m') p = Some t.
Proof.
  revert es ds vs m. induction ns as [|n ns IH]; intros es ds vs m H p t Hp; cbn [create_attributes_loop] in H.
  { injection H as <-. exact Hp. }
  destruct es as [|e es], ds as [|d ds], vs as [|v vs]; try discriminate. cbn zeta in H.
  apply bind_ok in H as [a [H1 H]]. apply bind_ok in H as [vals [H2 H]]. eapply IH; [exact H|].
  unfold set_attr_list. cbn [m_attrs]. rewrite kind_replace. destruct (beq n p) eqn:E; [|exact Hp]. apply beq_eq in E. subst p.
  cbn [a_type]. apply find_or_create_kind in H1 as [H1 H3]. rewrite H1. f_equal. symmetry. now apply H3.
Qed.
(** Success only depends on the number of vertices being large enough and on the types of the attributes. *)
Lemma fill_attr_ok_length {V} (vals : list V) e d mp pt n a a' b : fill_attr vals e d mp pt n a = Ok a' ->
  (List.length a <= List.length b)%nat -> exists b', fill_attr vals e d mp pt n b = Ok b'.
Proof.
  revert pt a b. induction n as [|n IH]; intros pt a b H Hl; cbn [fill_attr] in *; [eauto|].
  apply bind_ok in H as [k [E1 H]]. apply bind_ok in H as [row [E2 H]]. apply bind_ok in H as [a2 [E3 H]].
  rewrite E1. cbn [bind]. rewrite E2. cbn [bind]. unfold setz in *.
  destruct ((0 <=? Z.of_nat pt) && (Z.of_nat pt <? Z.of_nat (List.length a))) eqn:E; [|discriminate].
  apply andb_true_iff in E as [Ea Eb]. apply Z.ltb_lt in Eb.
  rewrite Ea, (proj2 (Z.ltb_lt _ _)) by lia. cbn [andb bind].
  eapply IH; [exact H|]. injection E3 as <-. now rewrite !upd_length.
Qed.
Lemma create_attributes_ok {C D} ns es ds vs nb mp (m m' : mesh F C) (k : mesh F D) :
  create_attributes_loop ns es ds vs nb mp m = Ok m' -> wf_attrs m -> wf_attrs k ->
  (List.length (m_points m) <= List.length (m_points k))%nat -> agree (m_attrs k) (m_attrs m') ->
  exists k', create_attributes_loop ns es ds vs nb mp k = Ok k' /\
    forall p t, kind (m_attrs k') p = Some t -> kind (m_attrs k) p = Some t \/ kind (m_attrs m') p = Some t.
Proof.
  revert es ds vs m k. induction ns as [|n ns IH]; intros es ds vs m k H Hm Hk Hl Ha; cbn [create_attributes_loop] in *; [eauto|].
  destruct es as [|e es], ds as [|d ds], vs as [|v vs]; try discriminate. cbn zeta in *.
  apply bind_ok in H as [a [H1 H]]. apply bind_ok in H as [vals [H2 H]].
  pose proof (find_or_create_wf _ _ _ _ _ Hm H1) as L1.
  assert (Kn : kind (m_attrs m') n = Some (attr_type e)).
  { eapply create_attributes_kinds; [exact H|]. unfold set_attr_list. cbn [m_attrs]. rewrite kind_replace, beq_refl.
    cbn [a_type]. now apply find_or_create_kind in H1 as [-> _]. }
  assert (X : exists a2, find_or_create k n e (repeat d (Z.to_nat e)) = Ok a2).
  { unfold find_or_create in *. destruct (beq n _); [discriminate|]. cbn zeta.
    destruct (find_attr n (m_attrs k)) as [b|] eqn:Eb; [|eauto].
    rewrite (proj2 (Z.eqb_eq _ _)); [eauto|]. eapply Ha; [|exact Kn]. unfold kind. now rewrite Eb. }
  destruct X as [a2 X]. pose proof (find_or_create_wf _ _ _ _ _ Hk X) as L2.
  rewrite X. cbn [bind]. destruct (fill_attr_ok_length _ _ _ _ _ _ _ _ (a_vals a2) H2 ltac:(lia)) as [w Hw].
  rewrite Hw. cbn [bind].
  assert (K2 : forall p t, kind (replace_attr n (mkAttr (a_type a2) (a_def a2) w) (m_attrs k)) p = Some t ->
    kind (m_attrs k) p = Some t \/ kind (m_attrs m') p = Some t).
  { intros p t. rewrite kind_replace. destruct (beq n p) eqn:E; [|auto]. apply beq_eq in E. subst p. cbn [a_type].
    apply find_or_create_kind in X as [-> _]. rewrite <- Kn. auto. }
  destruct (IH es ds vs _ (set_attr_list k (replace_attr n (mkAttr (a_type a2) (a_def a2) w) (m_attrs k))) H)
    as [k' [Hk' Kk']]; [ | |exact Hl| |exists k'; split; [exact Hk'|]].
  - unfold wf_attrs. cbn. apply replace_attr_wf; [|exact Hm]. cbn. now rewrite (fill_attr_length _ _ _ _ _ _ _ _ H2).
  - unfold wf_attrs. cbn. apply replace_attr_wf; [|exact Hk]. cbn. now rewrite (fill_attr_length _ _ _ _ _ _ _ _ Hw).
  - intros p t t' Ht Ht'. destruct (K2 p t Ht) as [Q|Q]; [eapply Ha; eassumption|congruence].
  - intros p t Ht. destruct (Kk' p t Ht) as [Q|Q]; [|now right]. exact (K2 p t Q).
Qed.

(** ** Surfaces *)
Lemma create_triangles_fields ts (m m' : mesh F tri) : foldM create_triangle ts m = Ok m' ->
  m_name m' = m_name m /\ m_points m' = m_points m /\ m_cells m' = m_cells m ++ ts /\ m_attrs m' = m_attrs m /\
  Forall (cell_in (nb_vertices m)) ts.
Proof.
  revert m. induction ts as [|t r IH]; intros m H; cbn [foldM] in H.
  { injection H as <-. rewrite app_nil_r. auto 6. }
  apply bind_ok in H as [m1 [H1 H]]. apply IH in H as [E1 [E2 [E3 [E4 E5]]]].
  unfold create_triangle in H1. destruct t as [[a b] c]. destruct (_ && _) eqn:E; [|discriminate].
  injection H1 as <-. unfold add_cell, nb_vertices in *. cbn [m_name m_points m_cells m_attrs] in *.
  rewrite E1, E2, E3, E4, <- app_assoc. repeat split. constructor; [|assumption].
  unfold cell_in. apply andb_true_iff in E as [E Ec]. apply andb_true_iff in E as [Ea Eb].
  unfold valid_vertex, nb_vertices in *.
  apply andb_true_iff in Ea as [Ea1 Ea2]. apply andb_true_iff in Eb as [Eb1 Eb2]. apply andb_true_iff in Ec as [Ec1 Ec2].
  apply Z.leb_le in Ea1, Eb1, Ec1. apply Z.ltb_lt in Ea2, Eb2, Ec2. lia.
Qed.
Lemma create_triangles_ok ts (m : mesh F tri) : Forall (cell_in (nb_vertices m)) ts ->
  exists m', foldM create_triangle ts m = Ok m'.
Proof.
  revert m. induction ts as [|[[a b] c] r IH]; intros m H; [now exists m|].
  pose proof (Forall_inv H) as H1. pose proof (Forall_inv_tail H) as H2. cbn [foldM].
  unfold create_triangle, valid_vertex. unfold cell_in in H1.
  rewrite !(proj2 (Z.leb_le _ _)), !(proj2 (Z.ltb_lt _ _)) by lia. cbn [andb bind]. apply IH. exact H2.
Qed.
(** The triangles of an object added to a mesh of [off] vertices. *)
Definition placed (off : Z) (ts : TSurf F) : list tri :=
  if off =? 0 then t_triangles ts else map (shift_tri off) (t_triangles ts).
Lemma build_surface_fields (m m' : mesh F tri) ts : build_surface m ts = Ok m' ->
  m_name m' = match t_name ts with Some n => Some n | None => m_name m end /\
  m_points m' = m_points m ++ t_points ts /\
  m_cells m' = m_cells m ++ placed (nb_vertices m) ts /\
  Forall (cell_in (nb_vertices m')) (placed (nb_vertices m) ts) /\
  (wf_attrs m -> wf_attrs m').
Proof.
  unfold build_surface, create_attributes. cbn zeta. intros H. apply bind_ok in H as [m2 [H1 H]].
  apply create_triangles_fields in H1 as [E1 [E2 [E3 [E4 E5]]]].
  apply create_attributes_loop_fields in H as [D1 [D2 [D3 D4]]].
  destruct (create_points_fields (t_points ts) (set_name (t_name ts) m)) as [P1 [P2 P3]].
  destruct (set_name_fields (t_name ts) m) as [N1 [N2 [N3 N4]]].
  split; [congruence|]. split; [congruence|]. split; [unfold placed; congruence|].
  split.
  - unfold nb_vertices in *. rewrite D2, E2. exact E5.
  - intros Hw. apply D4. unfold wf_attrs. rewrite E4, E2. apply create_points_wf.
    unfold wf_attrs. now rewrite N3, N1.
Qed.
Lemma create_points_kind {C} ps (m : mesh F C) p : kind (m_attrs (create_points ps m)) p = kind (m_attrs m) p.
Proof. apply extends_kind, create_points_extends. Qed.
Lemma build_surface_kinds (m m' : mesh F tri) ts : build_surface m ts = Ok m' ->
  forall p t, kind (m_attrs m) p = Some t -> kind (m_attrs m') p = Some t.
Proof.
  unfold build_surface, create_attributes. cbn zeta. intros H p t Hp. apply bind_ok in H as [m2 [H1 H]].
  eapply create_attributes_kinds; [exact H|]. apply create_triangles_fields in H1 as [_ [_ [_ [E4 _]]]].
  destruct (set_name_fields (t_name ts) m) as [_ [_ [N3 _]]]. now rewrite E4, create_points_kind, N3.
Qed.
Definition wf (m : mesh F tri) : Prop := wf_attrs m /\ wf_cells m.
Lemma cell_in_mono n n' t : n <= n' -> cell_in n t -> cell_in n' t.
Proof. destruct t as [[a b] c]. unfold cell_in. lia. Qed.
Lemma build_surface_wf m m' ts : wf m -> build_surface m ts = Ok m' -> wf m'.
Proof.
  intros [H1 H2] H. apply build_surface_fields in H as [_ [E2 [E3 [E4 E5]]]].
  split; [now apply E5|]. unfold wf_cells in *. rewrite E3. apply Forall_app. split; [|assumption].
  eapply Forall_impl; [|exact H2]. intros t. apply cell_in_mono. unfold nb_vertices, lenz. rewrite E2, app_length. lia.
Qed.
Lemma read_ts_loop_wf f m s m' : wf m -> read_ts_loop f m s = Ok m' -> wf m'.
Proof.
  revert m s. induction f as [|f IH]; intros m s Hw H; [discriminate|]. cbn [read_ts_loop] in H.
  destruct (read_tsurf F s) as [[[ts|] s1]| | |]; cbn [bind] in H; try discriminate.
  - apply bind_ok in H as [m1 [H1 H]]. eapply IH; [|exact H]. eapply build_surface_wf; eassumption.
  - now injection H as <-.
Qed.
(** The mesh made of [m1] followed by [m2]. *)
Definition plus_tri (k : Z) (t : tri) : tri := let '(a, b, c) := t in (a + k, b + k, c + k).
Definition glued (m1 m2 m : mesh F tri) : Prop :=
  m_name m = match m_name m2 with Some n => Some n | None => m_name m1 end /\
  m_points m = m_points m1 ++ m_points m2 /\
  m_cells m = m_cells m1 ++ map (plus_tri (nb_vertices m1)) (m_cells m2).
Lemma add32_add32 a x y : add32 (add32 a x) y = add32 a (x + y).
Proof. unfold add32, wrap32. rewrite Zplus_mod_idemp_l. f_equal. lia. Qed.
Lemma placed_shift n1 n2 ts tot : 0 <= n1 -> 0 <= n2 -> n1 + tot < two32 ->
  Forall (cell_in tot) (placed n2 ts) ->
  placed (n1 + n2) ts = map (plus_tri n1) (placed n2 ts).
Proof.
  intros H1 H2 Ht Hc. unfold placed in *.
  assert (G : forall l, Forall (cell_in tot) l -> map (shift_tri n1) l = map (plus_tri n1) l).
  { intros l. induction 1 as [|[[a b] c] r Ha Hr IH]; [reflexivity|]. cbn [map]. rewrite IH. f_equal.
    unfold shift_tri, plus_tri, cell_in in *. rewrite !add32_small by lia. reflexivity. }
  destruct (n2 =? 0) eqn:E.
  - apply Z.eqb_eq in E. subst n2. rewrite Z.add_0_r.
    destruct (n1 =? 0) eqn:E1; [|now apply G]. apply Z.eqb_eq in E1. subst n1.
    rewrite <- (map_id (t_triangles ts)) at 1. apply map_ext. intros [[a b] c]. unfold plus_tri. now rewrite !Z.add_0_r.
  - apply Z.eqb_neq in E. rewrite (proj2 (Z.eqb_neq _ _)) by lia. rewrite <- G by assumption. rewrite map_map.
    apply map_ext. intros [[a b] c]. unfold shift_tri. rewrite !add32_add32. rewrite (Z.add_comm n1 n2). reflexivity.
Qed.
Lemma nb_nonneg {C} (m : mesh F C) : 0 <= nb_vertices m.
Proof. unfold nb_vertices, lenz. lia. Qed.
Lemma cell_in_plus k n t : 0 <= k -> cell_in n t -> cell_in (k + n) (plus_tri k t).
Proof. destruct t as [[a b] c]. unfold cell_in, plus_tri. lia. Qed.
Lemma build_surface_glued m1 m2 m ts m2' : wf m1 -> wf m2 -> wf m -> glued m1 m2 m ->
  build_surface m2 ts = Ok m2' -> nb_vertices m1 + nb_vertices m2' < two32 -> agree (m_attrs m) (m_attrs m2') ->
  exists m', build_surface m ts = Ok m' /\ glued m1 m2' m' /\
    forall p t, kind (m_attrs m') p = Some t -> kind (m_attrs m) p = Some t \/ kind (m_attrs m2') p = Some t.
Proof.
  intros W1 W2 W G H Ht Ha. pose proof (build_surface_fields _ _ _ H) as [E1 [E2 [E3 [E4 E5]]]].
  destruct G as [G1 [G2 G3]].
  assert (Hn : nb_vertices m = nb_vertices m1 + nb_vertices m2).
  { unfold nb_vertices, lenz. rewrite G2, app_length. lia. }
  assert (Hp : placed (nb_vertices m) ts = map (plus_tri (nb_vertices m1)) (placed (nb_vertices m2) ts)).
  { rewrite Hn. apply (placed_shift _ _ _ (nb_vertices m2')); auto using nb_nonneg. }
  assert (X : exists m', build_surface m ts = Ok m' /\
    forall p t, kind (m_attrs m') p = Some t -> kind (m_attrs m) p = Some t \/ kind (m_attrs m2') p = Some t).
  { unfold build_surface, create_attributes in *. cbn zeta in *. fold (placed (nb_vertices m) ts).
    fold (placed (nb_vertices m2) ts) in H. apply bind_ok in H as [k2 [H1 H]].
    pose proof (create_triangles_fields _ _ _ H1) as [F1 [F2 [F3 [F4 F5]]]].
    destruct (create_points_fields (t_points ts) (set_name (t_name ts) m)) as [P1 [P2 P3]].
    destruct (set_name_fields (t_name ts) m) as [N1 [N2 [N3 N4]]].
    destruct (create_points_fields (t_points ts) (set_name (t_name ts) m2)) as [P1' [P2' P3']].
    destruct (set_name_fields (t_name ts) m2) as [N1' [N2' [N3' N4']]].
    destruct (create_triangles_ok (placed (nb_vertices m) ts) (create_points (t_points ts) (set_name (t_name ts) m))) as [k Hk].
    { rewrite Hp. apply Forall_map. eapply Forall_impl; [|exact E4]. intros t Hc.
      eapply cell_in_mono; [|apply cell_in_plus; [apply (nb_nonneg m1)|exact Hc]].
      unfold nb_vertices, lenz. rewrite E2, P2, N1, G2, !app_length. lia. }
    rewrite Hk. cbn [bind]. pose proof (create_triangles_fields _ _ _ Hk) as [K1 [K2 [K3 [K4 K5]]]].
    assert (Kk : forall p, kind (m_attrs k) p = kind (m_attrs m) p) by (intros p; now rewrite K4, create_points_kind, N3).
    destruct (create_attributes_ok _ _ _ _ _ _ _ _ k H) as [k' [Hk' Kk']]; [ | | | |exists k'; split; [exact Hk'|]].
    - unfold wf_attrs. rewrite F4, F2. apply create_points_wf. unfold wf_attrs. rewrite N3', N1'. apply W2.
    - unfold wf_attrs. rewrite K4, K2. apply create_points_wf. unfold wf_attrs. rewrite N3, N1. apply W.
    - rewrite F2, K2, P2, P2', N1, N1', G2, !app_length. lia.
    - intros p t t'. rewrite Kk. apply Ha.
    - intros p t Hpt. rewrite <- Kk. now apply Kk'. }
  destruct X as [m' [X XK]]. exists m'. split; [assumption|]. split; [|exact XK].
  apply build_surface_fields in X as [X1 [X2 [X3 _]]]. repeat split.
  - rewrite X1, E1, G1. destruct (t_name ts); reflexivity.
  - rewrite X2, E2, G2. now rewrite app_assoc.
  - rewrite X3, E3, G3, Hp, map_app. now rewrite app_assoc.
Qed.
Lemma read_ts_loop_grows f m s m' : read_ts_loop f m s = Ok m' -> nb_vertices (F:=F) m <= nb_vertices m'.
Proof.
  revert m s. induction f as [|f IH]; intros m s H; [discriminate|]. cbn [read_ts_loop] in H.
  destruct (read_tsurf F s) as [[[ts|] s1]| | |]; cbn [bind] in H; try discriminate.
  - apply bind_ok in H as [m1 [H1 H]]. apply IH in H. apply build_surface_fields in H1 as [_ [E _]].
    unfold nb_vertices, lenz in *. rewrite E, app_length in H. lia.
  - injection H as <-. lia.
Qed.
Lemma read_ts_loop_kinds f m s m' : read_ts_loop f m s = Ok m' ->
  forall p t, kind (m_attrs m) p = Some t -> kind (m_attrs m') p = Some t.
Proof.
  revert m s. induction f as [|f IH]; intros m s H p t Hp; [discriminate|]. cbn [read_ts_loop] in H.
  destruct (read_tsurf F s) as [[[ts|] s1]| | |]; cbn [bind] in H; try discriminate.
  - apply bind_ok in H as [m1 [H1 H]]. eapply IH; [exact H|]. eapply build_surface_kinds; eassumption.
  - now injection H as <-.
Qed.
Lemma read_ts_loop_glued f m1 m2 m s m2' : wf m1 -> wf m2 -> wf m -> glued m1 m2 m ->
  read_ts_loop f m2 s = Ok m2' -> nb_vertices m1 + nb_vertices m2' < two32 -> agree (m_attrs m) (m_attrs m2') ->
  exists m', read_ts_loop f m s = Ok m' /\ glued m1 m2' m' /\
    forall p t, kind (m_attrs m') p = Some t -> kind (m_attrs m) p = Some t \/ kind (m_attrs m2') p = Some t.
Proof.
  revert m2 m s. induction f as [|f IH]; intros m2 m s W1 W2 W G H Ht Ha; [discriminate|]. cbn [read_ts_loop] in *.
  destruct (read_tsurf F s) as [[[ts|] s1]| | |]; cbn [bind] in H |- *; try discriminate.
  - apply bind_ok in H as [k2 [H1 H]].
    pose proof (read_ts_loop_kinds _ _ _ _ H) as M.
    destruct (build_surface_glued m1 m2 m ts k2 W1 W2 W G H1) as [k [Hk [Gk Kk]]].
    { apply read_ts_loop_grows in H. lia. }
    { intros p t t' Hp Hp'. eapply Ha; [exact Hp|]. now apply M. }
    rewrite Hk. cbn [bind]. destruct (IH k2 k s1 W1) as [m' [Hm' [Gm' Km']]]; auto;
      [exact (build_surface_wf _ _ _ W2 H1)|exact (build_surface_wf _ _ _ W Hk)| |].
    { intros p t t' Hp Hp'. destruct (Kk p t Hp) as [Q|Q]; [eapply Ha; eassumption|]. apply M in Q. congruence. }
    exists m'. split; [assumption|]. split; [assumption|]. intros p t Hp. destruct (Km' p t Hp) as [Q|Q]; [|now right].
    destruct (Kk p t Q) as [Q'|Q']; [now left|right; now apply M].
  - injection H as <-. eauto.
Qed.
Lemma replace_attr_nonnil {V} n (a : attr V) l : replace_attr n a l <> [].
Proof. destruct l as [|[n' b] r]; cbn [replace_attr]; [discriminate|]. destruct (beq n' n); discriminate. Qed.
Lemma create_attributes_nonnil {C} ns es ds vs nb mp (m m' : mesh F C) :
  create_attributes_loop ns es ds vs nb mp m = Ok m' -> m_attrs m' = [] -> ns = [] /\ m_attrs m = [].
Proof.
  revert es ds vs m. induction ns as [|n ns IH]; intros es ds vs m H E; cbn [create_attributes_loop] in H.
  { injection H as <-. auto. }
  destruct es as [|e es], ds as [|d ds], vs as [|v vs]; try discriminate. cbn zeta in H.
  apply bind_ok in H as [a [H1 H]]. apply bind_ok in H as [vals [H2 H]].
  apply IH in H; [|assumption]. destruct H as [_ H]. cbn in H. now apply replace_attr_nonnil in H.
Qed.
Lemma create_points_attrs_nil {C} ps (m : mesh F C) : m_attrs (create_points ps m) = [] -> m_attrs m = [].
Proof. intros H. pose proof (create_points_extends ps m) as E. rewrite H in E. now inversion E. Qed.
Lemma build_surface_no_attrs (m m' : mesh F tri) ts : build_surface m ts = Ok m' -> m_attrs m' = [] ->
  p_names (t_props ts) = [] /\ m_attrs m = [].
Proof.
  unfold build_surface, create_attributes. cbn zeta. intros H E. apply bind_ok in H as [m2 [H1 H]].
  apply create_attributes_nonnil in H as [H H2]; [|assumption]. split; [assumption|].
  apply create_triangles_fields in H1 as [_ [_ [_ [E4 _]]]]. rewrite E4 in H2. apply create_points_attrs_nil in H2.
  destruct (set_name_fields (t_name ts) m) as [_ [_ [N3 _]]]. congruence.
Qed.
Lemma read_ts_loop_attrs f (m m' : mesh F tri) s : read_ts_loop f m s = Ok m' -> m_attrs m' = [] -> m_attrs m = [].
Proof.
  revert m s. induction f as [|f IH]; intros m s H E; [discriminate|]. cbn [read_ts_loop] in H.
  destruct (read_tsurf F s) as [[[ts|] s1]| | |]; cbn [bind] in H; try discriminate.
  - apply bind_ok in H as [m1 [H1 H]]. apply IH in H; [|assumption]. now apply build_surface_no_attrs in H1.
  - now injection H as <-.
Qed.
Lemma build_surface_extends (m m' : mesh F tri) ts : build_surface m ts = Ok m' -> p_names (t_props ts) = [] ->
  extends (m_attrs m) (m_attrs m').
Proof.
  unfold build_surface, create_attributes. cbn zeta. intros H E. rewrite E in H. apply bind_ok in H as [m2 [H1 H]].
  cbn in H. injection H as <-. apply create_triangles_fields in H1 as [_ [_ [_ [E4 _]]]]. rewrite E4.
  destruct (set_name_fields (t_name ts) m) as [_ [_ [N3 _]]]. rewrite <- N3. apply create_points_extends.
Qed.
Lemma read_ts_loop_extends f (m2 m m2' m' : mesh F tri) s : read_ts_loop f m2 s = Ok m2' -> m_attrs m2' = [] ->
  read_ts_loop f m s = Ok m' -> extends (m_attrs m) (m_attrs m').
Proof.
  revert m2 m s. induction f as [|f IH]; intros m2 m s H E H'; [discriminate|]. cbn [read_ts_loop] in *.
  destruct (read_tsurf F s) as [[[ts|] s1]| | |]; cbn [bind] in H, H'; try discriminate.
  - apply bind_ok in H as [k2 [H1 H]]. apply bind_ok in H' as [k [H1' H']].
    pose proof (read_ts_loop_attrs _ _ _ _ H E) as Ek. apply build_surface_no_attrs in H1 as [Ep _]; [|assumption].
    eapply extends_trans; [eapply build_surface_extends; eassumption|]. eapply IH; eassumption.
  - injection H' as <-. apply extends_refl.
Qed.
Lemma extends_value {C} (m m' : mesh F C) n v x : extends (m_attrs m) (m_attrs m') ->
  attr_value m n v = Some x -> attr_value m' n v = Some x.
Proof.
  unfold attr_value, find_attr, extends. intros H. induction H as [|a b r r' [A1 [A2 [A3 [k A4]]]] H2 IH]; [discriminate|].
  cbn [find]. rewrite A1. destruct (beq (fst a) n); [|exact IH]. cbn [option_map]. intros Hx.
  rewrite A4. rewrite nth_error_app1; [assumption|]. apply nth_error_Some. congruence.
Qed.
Lemma wf_empty : wf empty_mesh.
Proof. split; constructor. Qed.
Theorem read_ts_glued ls1 ls2 m1 m2 : Forall is_line ls1 -> Forall is_line ls2 ->
  read_ts F (unlines ls1) = Ok m1 -> read_ts F (unlines ls2) = Ok m2 -> nb_vertices m1 + nb_vertices m2 < two32 ->
  agree (m_attrs m1) (m_attrs m2) ->
  exists m, read_ts F (unlines (ls1 ++ ls2)) = Ok m /\ glued m1 m2 m /\ wf m /\ wf m1 /\ wf m2 /\
    (m_attrs m2 = [] -> extends (m_attrs m1) (m_attrs m)) /\
    (forall p t, kind (m_attrs m) p = Some t -> kind (m_attrs m1) p = Some t \/ kind (m_attrs m2) p = Some t).
Proof.
  intros L1 L2 H1 H2 Ht Ha. unfold read_ts in *. rewrite open_unlines in * by (try apply Forall_app; auto).
  cbn [pending] in *.
  pose proof (read_ts_loop_wf _ _ _ _ wf_empty H1) as W1. pose proof (read_ts_loop_wf _ _ _ _ wf_empty H2) as W2.
  pose proof (read_ts_loop_app F _ _ _ _ ls2 true H1 (S (List.length (ls1 ++ ls2))) ltac:(cbn [pending]; lia)) as E.
  unfold ext in E. cbn [pending] in E. rewrite E.
  destruct (read_ts_loop_glued (S (List.length ls2)) m1 empty_mesh m1 (mkStream ls2 true) m2) as [m [Hm [G K]]];
    auto using wf_empty.
  { repeat split; cbn; now rewrite app_nil_r. }
  exists m. split; [assumption|]. split; [assumption|].
  split; [eapply read_ts_loop_wf; [|exact Hm]; exact W1|]. split; [assumption|]. split; [assumption|].
  split; [|exact K]. intros E0. exact (read_ts_loop_extends _ _ _ _ _ _ H2 E0 Hm).
Qed.
End Wf.
