(** * The .lso reader on a file made of complete lines: where it is in the file, and that it ends. *)
From Coq Require Import ZArith List Lia Bool Ascii String.
From Verif Require Import Base Text TextFacts GocadModel MeshModel TsModel Spec GocadFacts TsFacts StreamFacts LsoModel.
Import ListNotations.
Local Open Scope string_scope.
Local Open Scope list_scope.
Local Open Scope Z_scope.

(** ** Headers *)
Definition keeps (s s' : istream) : Prop := suffix (pending s') (pending s) /\ (nl s' = nl s \/ pending s' = []).
Lemma suffix_nil a : suffix a [] -> a = [].
Proof. intros [p H]. symmetry in H. now apply app_eq_nil in H. Qed.
Lemma keeps_refl s : keeps s s. Proof. split; [apply suffix_refl|now left]. Qed.
Lemma keeps_trans a b c : keeps a b -> keeps b c -> keeps a c.
Proof.
  intros [S1 H1] [S2 H2]. split; [eapply suffix_trans; eassumption|]. destruct H2 as [H2|H2]; [|now right].
  destruct H1 as [H1|H1]; [left; congruence|right]. rewrite H1 in S2. now apply suffix_nil in S2.
Qed.
Lemma goto_if_keeps kw s l s' : goto_if kw s = (Some l, s') -> keeps s s' /\ nl s' = nl s.
Proof.
  intros E. pose proof (goto_if_suffix _ _ _ _ E) as H. apply suffix_tl in H. unfold goto_if in E.
  destruct (scan _ (pending s)) as [[x r]|]; [|discriminate]. assert (s' = mkStream r (nl s)) as -> by congruence. split; [split; [exact H|now left]|reflexivity].
Qed.
Lemma goto_keyword_keeps kw s l s' : goto_keyword kw s = Ok (l, s') -> keeps s s' /\ nl s' = nl s.
Proof.
  unfold goto_keyword. destruct (goto_if kw s) as [[x|] t] eqn:E; [|discriminate]. intros H. assert (s' = t) as -> by congruence. now apply goto_if_keeps in E.
Qed.
Lemma next_if_keeps kw s o s' : next_if kw s = (o, s') -> keeps s s'.
Proof.
  intros E. pose proof (next_if_suffix _ _ _ _ E) as H. split; [exact H|]. unfold next_if in E. destruct (pending s) as [|x r].
  - right. assert (s' = mkStream [] false) as -> by congruence. reflexivity.
  - left. destruct (starts_with x kw); assert (s' = _) as -> by (injection E as _ E; symmetry; exact E); reflexivity.
Qed.
Lemma read_header_keeps s t s' : read_header s = Ok (t, s') -> keeps s s'.
Proof.
  intros E. pose proof (read_header_suffix _ _ E) as H. cbn [snd] in H. split; [exact H|left]. unfold read_header in E.
  apply bind_ok in E. destruct E as [s1 [E1 E]]. apply bind_ok in E. destruct E as [[n r] [E2 E]].
  assert (s' = mkStream r (nl s1)) as -> by congruence. cbn [nl]. unfold check_keyword in E1. destruct (pending s); [discriminate|].
  destruct (starts_with _ _); [|discriminate]. assert (s1 = mkStream l (nl s)) as -> by congruence. reflexivity.
Qed.
Lemma read_CRS_keeps s t s' : read_CRS s = Ok (t, s') -> keeps s s'.
Proof.
  intros E. pose proof (read_CRS_suffix _ _ E) as H. cbn [snd] in H. split; [exact H|]. unfold read_CRS in E.
  destruct (next_if _ s) as [[l|] s1] eqn:E1.
  - apply bind_ok in E. destruct E as [[c r] [E2 E]]. assert (s' = mkStream r (nl s1)) as -> by congruence. cbn [nl pending].
    pose proof (next_if_keeps _ _ _ _ E1) as [_ [K|K]]; [now left|]. right. apply crs_loop_suffix in E2. cbn [snd] in E2. rewrite K in E2. now apply suffix_nil.
  - assert (s' = s1) as -> by congruence. apply next_if_keeps in E1. apply E1.
Qed.
Lemma kw_one_string_keeps kw n s x : kw_one_string kw n s = Ok x -> keeps s (snd x).
Proof.
  unfold kw_one_string. intros E. apply bind_ok in E. destruct E as [[l s1] [E1 E]]. do 2 (apply bind_ok in E; destruct E as [? [_ E]]).
  assert (snd x = s1) as -> by (destruct x; cbn [snd]; congruence). now apply goto_keyword_keeps in E1.
Qed.
Lemma kw_two_strings_keeps kw n s x : kw_two_strings kw n s = Ok x -> keeps s (snd x).
Proof.
  unfold kw_two_strings. intros E. apply bind_ok in E. destruct E as [[l s1] [E1 E]]. apply bind_ok in E; destruct E as [? [_ E]].
  assert (snd x = s1) as -> by (destruct x; cbn [snd]; congruence). now apply goto_keyword_keeps in E1.
Qed.
Lemma kw_one_double_keeps F kw n s x : kw_one_double F kw n s = Ok x -> keeps s (snd x).
Proof.
  unfold kw_one_double. intros E. apply bind_ok in E. destruct E as [[l s1] [E1 E]]. apply bind_ok in E; destruct E as [? [_ E]].
  assert (snd x = s1) as -> by (destruct x; cbn [snd]; congruence). now apply goto_keyword_keeps in E1.
Qed.
Lemma kw_one_index_keeps kw n s x : kw_one_index kw n s = Ok x -> keeps s (snd x).
Proof.
  unfold kw_one_index. intros E. apply bind_ok in E. destruct E as [[l s1] [E1 E]]. apply bind_ok in E; destruct E as [? [_ E]].
  assert (snd x = s1) as -> by (destruct x; cbn [snd]; congruence). now apply goto_keyword_keeps in E1.
Qed.
Lemma read_prop_header_keeps F pre s t s' : read_prop_header F pre s = Ok (t, s') -> keeps s s'.
Proof.
  intros E. unfold read_prop_header in E. destruct (next_if _ s) as [[l|] s1] eqn:E1; apply next_if_keeps in E1.
  - apply bind_ok in E. destruct E as [sl [_ E]]. cbn zeta in E. destruct (Nat.eqb _ 0); [assert (s' = s1) as -> by congruence; exact E1|].
    apply bind_ok in E. destruct E as [names [_ E]]. apply bind_ok in E. destruct E as [[rg s2] [H1 E]]. apply bind_ok in E. destruct E as [[nd s3] [H2 E]].
    apply bind_ok in E. destruct E as [[cl s4] [H3 E]]. apply bind_ok in E. destruct E as [[kd s5] [H4 E]]. apply bind_ok in E. destruct E as [[sb s6] [H5 E]].
    apply bind_ok in E. destruct E as [[ez s7] [H6 E]]. apply bind_ok in E. destruct E as [[un s8] [H7 E]]. assert (s' = s8) as -> by congruence.
    apply kw_two_strings_keeps in H1. apply kw_one_double_keeps in H2. apply kw_one_string_keeps in H3. apply kw_one_string_keeps in H4.
    apply kw_two_strings_keeps in H5. apply kw_one_index_keeps in H6. apply kw_one_string_keeps in H7. cbn [snd] in *.
    repeat (eapply keeps_trans; [eassumption|]). apply keeps_refl.
  - assert (s' = s1) as -> by congruence. exact E1.
Qed.

(** ** Positions *)
(** The reader holds [line] and the rest [s] of the lines [ls] of a file made of complete lines: either [line] is followed by the
    lines of [s], or the end has been met. *)
Definition reached (ls : list bytes) (line : bytes) (s : istream) : Prop :=
  (nl s = true /\ suffix (line :: pending s) ls) \/ (line = [] /\ pending s = []).
Lemma reached_sub ls ls' line s : suffix ls ls' -> reached ls line s -> reached ls' line s.
Proof. intros H [[H1 H2]|H1]; [left; split; [assumption|eapply suffix_trans; eassumption]|now right]. Qed.
Lemma getline_reached line s g line' s' : nl s = true -> getline line s = (g, line', s') -> reached (pending s) line' s' /\ (List.length (pending s') <= pred (List.length (pending s)))%nat.
Proof.
  unfold getline. intros N E. destruct (pending s) as [|l r].
  - rewrite N in E. assert (line' = [] /\ s' = mkStream [] false) as [-> ->] by (split; congruence). split; [right; auto|cbn; lia].
  - assert (line' = l /\ s' = mkStream r (nl s)) as [-> ->] by (split; congruence). cbn [nl pending]. split; [left; split; [assumption|apply suffix_refl]|reflexivity].
Qed.

Section Reader.
Context {F : Num}.
Lemma vertices_reached crs h ls : forall sv line sv' l' s', lso_vertices F crs h sv line true ls = Ok (sv', l', s') -> reached ls l' s'.
Proof.
  induction ls as [|l ls IH]; intros sv line sv' l' s' E; cbn [lso_vertices] in E; apply bind_ok in E; destruct E as [sv1 [_ E]].
  - right. split; [congruence|]. assert (s' = mkStream [] false) as -> by congruence. reflexivity.
  - destruct (contains l "VRTX").
    + apply IH in E. eapply reached_sub; [|exact E]. apply suffix_cons, suffix_refl.
    + assert (l' = l /\ s' = mkStream ls true) as [-> ->] by (split; congruence). left. split; [reflexivity|apply suffix_refl].
Qed.
Lemma skip_reached ls kind line s line' s' : reached ls line s -> skip_indicators kind line s = Ok (line', s') -> reached ls line' s'.
Proof.
  intros R E. unfold skip_indicators in E. destruct (starts_with line _) eqn:ES; [|assert (line' = line /\ s' = s) as [-> ->] by (split; congruence); exact R].
  destruct R as [[N H]|[-> _]]; [|discriminate ES]. apply bind_ok in E. destruct E as [[l s1] [E1 E]].
  destruct (goto_keyword_keeps _ _ _ _ E1) as [[K _] N1]. destruct (getline line s1) as [[g l2] s2] eqn:EG.
  assert (line' = l2 /\ s' = s2) as [-> ->] by (split; congruence). destruct (getline_reached line s1 g l2 s2 ltac:(congruence) EG) as [R _].
  eapply reached_sub; [|exact R]. eapply suffix_trans; [exact K|]. eapply suffix_tl; exact H.
Qed.
Lemma tetra_empty h n (st st' : SolidT F) l2 : lso_tetra F h n st [] l2 = Ok st' -> False.
Proof. unfold lso_tetra. cbn. discriminate. Qed.
Lemma tetras_reached h n k : forall ls, (List.length ls <= k)%nat -> forall (st : SolidT F) line st' l' s',
  lso_tetras F h n st line true ls = Ok (st', l', s') -> reached ls l' s'.
Proof.
  induction k as [|k IH]; intros ls HL st line st' l' s' E.
  - destruct ls; [|cbn [List.length] in HL; lia]. cbn [lso_tetras] in E. apply bind_ok in E. destruct E as [st1 [_ E]].
    right. split; [congruence|]. assert (s' = mkStream [] false) as -> by congruence. reflexivity.
  - destruct ls as [|l2 ls]; cbn [lso_tetras] in E; apply bind_ok in E; destruct E as [st1 [_ E]].
    + right. split; [congruence|]. assert (s' = mkStream [] false) as -> by congruence. reflexivity.
    + destruct ls as [|l ls].
      * right. split; [congruence|]. assert (s' = mkStream [] false) as -> by congruence. reflexivity.
      * destruct (starts_with l "TETRA").
        -- apply IH in E; [|cbn [List.length] in HL; lia]. eapply reached_sub; [|exact E]. do 2 apply suffix_cons. apply suffix_refl.
        -- assert (l' = l /\ s' = mkStream ls true) as [-> ->] by (split; congruence). left. split; [reflexivity|apply suffix_cons, suffix_refl].
Qed.

(** ** End of the loops *)
Definition live (line : bytes) (s : istream) : Prop := nl s = true \/ (line = [] /\ pending s = []).
Lemma reached_live ls line s : reached ls line s -> live line s.
Proof. intros [[H _]|H]; [now left|now right]. Qed.
Lemma getline_live line s g line' s' : live line s -> line <> [] -> getline line s = (g, line', s') ->
  live line' s' /\ ((List.length (pending s') < List.length (pending s))%nat \/ (line' = [] /\ pending s' = [])).
Proof.
  intros [N|[H _]] NE E; [|congruence]. unfold getline in E. destruct (pending s) as [|l r].
  - rewrite N in E. assert (line' = [] /\ s' = mkStream [] false) as [-> ->] by (split; congruence). split; [right; auto|right; auto].
  - assert (line' = l /\ s' = mkStream r (nl s)) as [-> ->] by (split; congruence). cbn [nl pending List.length]. split; [now left|left; lia].
Qed.
Lemma triangles_live sv tets k ls : forall st line b st' l' s', (b = true \/ (line = [] /\ ls = [])) ->
  lso_triangles F sv tets k st line b ls = Ok (st', l', s') -> live l' s' /\ ((List.length (pending s') <= List.length ls)%nat) /\ (ls = [] -> l' = [] /\ pending s' = []).
Proof.
  induction ls as [|l ls IH]; intros st line b st' l' s' H E; cbn [lso_triangles] in E.
  - assert (s' = mkStream [] false) as -> by congruence. assert (l' = []) as -> by (destruct H as [->|[-> _]]; [|destruct b]; congruence).
    split; [right; auto|]. split; [cbn; lia|auto].
  - destruct H as [->|[_ H]]; [|discriminate]. destruct (starts_with l "TRGL").
    + apply bind_ok in E. destruct E as [st1 [_ E]]. destruct (IH _ _ _ _ _ _ (or_introl eq_refl) E) as [H1 [H2 H3]]. cbn [List.length]. split; [assumption|]. split; [lia|discriminate].
    + assert (l' = l /\ s' = mkStream ls true) as [-> ->] by (split; congruence). split; [now left|]. cbn [pending List.length]. split; [lia|discriminate].
Qed.
Lemma use_vertex_nohang sv (us : Used F) v : use_vertex F sv us v <> Hang.
Proof. unfold use_vertex, idxz. nh. Qed.
Hint Resolve use_vertex_nohang : nohang.
Lemma trgl_nohang sv tets k st l : lso_trgl F sv tets k st l <> Hang.
Proof. unfold lso_trgl, facets_from_vertices, idxz. nh. Qed.
Hint Resolve trgl_nohang : nohang.
Lemma triangles_nohang sv tets k ls : forall st line b, lso_triangles F sv tets k st line b ls <> Hang.
Proof. induction ls as [|l ls IH]; intros; cbn [lso_triangles]; nh. Qed.

Lemma tfaces_ends sv tets name fuel : forall st line s, live line s -> (List.length (pending s) + 2 <= fuel)%nat ->
  lso_tfaces F fuel sv tets name st line s <> Hang /\
  (forall st' l' s', lso_tfaces F fuel sv tets name st line s = Ok (st', l', s') -> live l' s' /\ (List.length (pending s') <= List.length (pending s))%nat).
Proof.
  induction fuel as [|fuel IH]; intros st line s L HF; [lia|]. cbn [lso_tfaces]. destruct (starts_with line "TFACE") eqn:ES.
  - destruct (getline line s) as [[g line1] s1] eqn:EG. destruct (getline_live _ _ _ _ _ L ltac:(intros ->; discriminate ES) EG) as [L1 D1].
    assert (HT : forall ts l2 s2, lso_triangles F sv tets (lenz (ss_surfs st)) (mkTriSt no_vertex [] (ss_facets st) (ss_inspect st)) line1 (nl s1) (pending s1) = Ok (ts, l2, s2) ->
       live l2 s2 /\ ((List.length (pending s2) < List.length (pending s))%nat \/ (l2 = [] /\ pending s2 = []))).
    { intros ts l2 s2 E2. destruct (triangles_live _ _ _ _ _ _ _ _ _ _ L1 E2) as [L2 [D2 D2']]. split; [assumption|]. destruct D1 as [D1|[_ D1]]; [left; lia|right; auto]. }
    split.
    + apply bind_nohang; [apply triangles_nohang|]. intros [[ts line2] s2] E2. destruct (HT _ _ _ E2) as [L2 [D2|[-> D2]]].
      * apply IH; [assumption|lia].
      * destruct fuel; [lia|]. cbn [lso_tfaces]. discriminate.
    + intros st' l' s' E. apply bind_ok in E. destruct E as [[[ts line2] s2] [E2 E]]. destruct (HT _ _ _ E2) as [L2 [D2|[-> D2]]].
      * destruct (IH (mkSurfSt (ss_surfs st ++ [mkLSurfR name (us_points (ts_used ts)) (ts_tris ts) (us_uv (ts_used ts))]) (ts_facets ts) (ts_inspect ts)) line2 s2 L2 ltac:(lia)) as [_ H].
        destruct (H _ _ _ E) as [H1 H2]. split; [assumption|lia].
      * destruct fuel; [lia|]. cbn [lso_tfaces] in E. change (starts_with [] "TFACE") with false in E. cbn iota in E.
        assert (l' = [] /\ s' = s2) as [-> ->] by (split; congruence). rewrite D2. split; [assumption|cbn; lia].
  - split; [discriminate|]. intros st' l' s' E. assert (l' = line /\ s' = s) as [-> ->] by (split; congruence). split; [assumption|lia].
Qed.
Lemma surfaces_ends sv tets fuel : forall st hs line s, live line s -> (List.length (pending s) + 2 <= fuel)%nat ->
  lso_surfaces F fuel sv tets st hs line s <> Hang /\
  (forall st' hs' l' s', lso_surfaces F fuel sv tets st hs line s = Ok (st', hs', l', s') -> live l' s').
Proof.
  induction fuel as [|fuel IH]; intros st hs line s L HF; [lia|]. cbn [lso_surfaces]. destruct (starts_with line "SURFACE") eqn:ES.
  - destruct (getline line s) as [[g line1] s1] eqn:EG. destruct (getline_live _ _ _ _ _ L ltac:(intros ->; discriminate ES) EG) as [L1 D1].
    destruct D1 as [D1|[-> D1]].
    + set (name := read_name (tl (string_split line))).
      destruct (tfaces_ends sv tets name (S (S (List.length (pending s1)))) st line1 s1 L1 ltac:(lia)) as [N1 H1]. split.
      * apply bind_nohang; [exact N1|]. intros [[st2 line2] s2] E2. destruct (H1 _ _ _ E2) as [L2 D2]. apply IH; [assumption|lia].
      * intros st' hs' l' s' E. apply bind_ok in E. destruct E as [[[st2 line2] s2] [E2 E]]. destruct (H1 _ _ _ E2) as [L2 D2].
        eapply IH; [exact L2| |exact E]. lia.
    + cbn [lso_tfaces]. change (starts_with [] "TFACE") with false. cbn iota. cbn [bind]. destruct fuel; [lia|]. cbn [lso_surfaces].
      change (starts_with [] "SURFACE") with false. cbn iota. split; [discriminate|]. intros st' hs' l' s' E.
      assert (l' = [] /\ s' = s1) as [-> ->] by (split; congruence). assumption.
  - split; [discriminate|]. intros st' hs' l' s' E. assert (l' = line /\ s' = s) as [-> ->] by (split; congruence). assumption.
Qed.
Lemma use_tets_nohang sv ts : forall (us : Used F), use_tets F sv us ts <> Hang.
Proof. induction ts as [|t ts IH]; intros us; cbn [use_tets]; unfold use_tet; nh. Qed.
Lemma make_attributes_nohang {V} vt c names : forall es ds vs n mp (l : list (bytes * attr V)), make_attributes vt c names es ds vs n mp l <> Hang.
Proof.
  induction names as [|x names IH]; intros es ds vs n mp l; cbn [make_attributes]; nh; try apply fill_attr_nohang. unfold find_or_create_in. nh.
Qed.
Hint Resolve use_tets_nohang make_attributes_nohang : nohang.
Lemma build_block_nohang vp tp sv st ss name : build_block F vp tp sv st ss name <> Hang.
Proof. unfold build_block. nh. Qed.
Hint Resolve build_block_nohang : nohang.
Lemma blocks_end vp tp sv st ss fuel : forall line s, live line s -> (List.length (pending s) + 2 <= fuel)%nat -> lso_blocks F vp tp fuel sv st ss line s <> Hang.
Proof.
  induction fuel as [|fuel IH]; intros line s L HF; [lia|]. cbn [lso_blocks]. destruct (starts_with line "MODEL_REGION") eqn:ES; [|discriminate].
  apply bind_nohang; [nh|]. intros name _. apply bind_nohang; [nh|]. intros [b bad] _.
  destruct (getline line s) as [[g line1] s1] eqn:EG. destruct (getline_live _ _ _ _ _ L ltac:(intros ->; discriminate ES) EG) as [L1 D1].
  apply bind_nohang; [|intros [bs bad'] _; discriminate]. destruct D1 as [D1|[-> D1]]; [apply IH; [assumption|lia]|].
  destruct fuel; [lia|]. discriminate.
Qed.
Lemma vertex_nohang crs h sv line : lso_vertex F crs h sv line <> Hang.
Proof. unfold lso_vertex, idxz. nh. Qed.
Lemma vertices_nohang crs h ls : forall sv line b, lso_vertices F crs h sv line b ls <> Hang.
Proof. induction ls as [|l ls IH]; intros sv line b; cbn [lso_vertices]; apply bind_nohang; try apply vertex_nohang; intros sv' _; nh. Qed.
Lemma tetra_nohang h n (st : SolidT F) l1 l2 : lso_tetra F h n st l1 l2 <> Hang.
Proof. unfold lso_tetra. nh. Qed.
Lemma tetras_nohang h n k : forall ls, (List.length ls <= k)%nat -> forall (st : SolidT F) line b, lso_tetras F h n st line b ls <> Hang.
Proof.
  induction k as [|k IH]; intros ls HL st line b.
  - destruct ls; [|cbn [List.length] in HL; lia]. cbn [lso_tetras]. apply bind_nohang; [apply tetra_nohang|discriminate].
  - destruct ls as [|l2 ls]; cbn [lso_tetras]; apply bind_nohang; try apply tetra_nohang; [discriminate|]. intros st1 _. destruct ls as [|l ls]; [discriminate|].
    destruct (starts_with l "TETRA"); [|discriminate]. apply IH. cbn [List.length] in HL. lia.
Qed.

(** The state before the vertices. *)
Lemma lso_start text : nl (open_text text) = true -> forall l s0 t s1 crs s2 vp s3 tp s4 line s5, goto_if "GOCAD LightTSolid" (open_text text) = (Some l, s0) ->
  read_header s0 = Ok (t, s1) -> read_CRS s1 = Ok (crs, s2) -> read_prop_header F [] s2 = Ok (vp, s3) -> read_prop_header F "TETRA_" s3 = Ok (tp, s4) ->
  goto_keywords (map lit ["VRTX"; "PVRTX"]) s4 = Ok (line, s5) -> nl s5 = true /\ suffix (line :: pending s5) (pending (open_text text)).
Proof.
  intros N l s0 t s1 crs s2 vp s3 tp s4 line s5 E0 E1 E2 E3 E4 E5. apply goto_if_keeps in E0. destruct E0 as [E0 _]. apply read_header_keeps in E1. apply read_CRS_keeps in E2.
  apply read_prop_header_keeps in E3. apply read_prop_header_keeps in E4.
  assert (keeps (open_text text) s4) as [K1 K2] by (repeat (eapply keeps_trans; [eassumption|]); apply keeps_refl).
  pose proof (goto_keywords_suffix _ _ _ _ E5) as E6. split; [|eapply suffix_trans; eassumption].
  unfold goto_keywords in E5. destruct (scan _ (pending s4)) as [[x r]|] eqn:ES; [|discriminate]. assert (s5 = mkStream r (nl s4)) as -> by congruence. cbn [nl].
  destruct K2 as [K2|K2]; [congruence|]. rewrite K2 in ES. discriminate.
Qed.
Lemma read_lso_ends text : nl (open_text text) = true -> read_lso F text <> Hang.
Proof.
  intros N. unfold read_lso. destruct (goto_if _ (open_text text)) as [[l0|] s0] eqn:E0; [|discriminate].
  apply bind_nohang; [nh|]. intros [t s1] E1. apply bind_nohang; [nh|]. intros [crs s2] E2. apply bind_nohang; [nh|]. intros [vp s3] E3.
  apply bind_nohang; [nh|]. intros [tp s4] E4. unfold lso_body. apply bind_nohang; [nh|]. intros [line s5] E5.
  destruct (lso_start text N _ _ _ _ _ _ _ _ _ _ _ _ E0 E1 E2 E3 E4 E5) as [N5 S5].
  apply bind_nohang; [apply vertices_nohang|]. intros [[sv line2] s6] E6. rewrite N5 in E6. apply vertices_reached in E6.
  apply bind_nohang; [unfold skip_indicators; nh|]. intros [line3 s7] E7. pose proof (skip_reached _ _ _ _ _ _ E6 E7) as R7.
  apply bind_nohang; [eapply tetras_nohang; apply le_n|]. intros [[st line4] s8] E8.
  assert (R8 : reached (pending s7) line4 s8).
  { destruct R7 as [[N7 _]|[-> P7]]; [rewrite N7 in E8; eapply tetras_reached; [apply le_n|exact E8]|]. exfalso. rewrite P7 in E8. cbn [lso_tetras] in E8.
    apply bind_ok in E8. destruct E8 as [st1 [E8 _]]. exact (tetra_empty _ _ _ _ _ E8). }
  apply bind_nohang; [unfold skip_indicators; nh|]. intros [line5 s9] E9. pose proof (skip_reached _ _ _ _ _ _ R8 E9) as R9.
  apply bind_nohang; [nh|]. intros [line5' s10] E10.
  assert (L10 : nl s10 = true /\ True).
  { split; [|exact I]. destruct (starts_with line5 "MODEL") eqn:ES.
    - assert (s10 = s9) as -> by congruence. destruct R9 as [[H _]|[-> _]]; [assumption|discriminate ES].
    - apply bind_ok in E10. destruct E10 as [[l s] [EG E10]]. assert (s10 = s) as -> by congruence. destruct (goto_keyword_keeps _ _ _ _ EG) as [_ K]. rewrite K.
      destruct R9 as [[H _]|[_ H]]; [assumption|]. apply goto_keyword_suffix in EG. rewrite H in EG. apply suffix_nil in EG. discriminate. }
  destruct L10 as [L10 _]. destruct (getline line5' s10) as [[g line6] s11] eqn:EG. destruct (getline_reached _ _ _ _ _ L10 EG) as [R11 _]. apply reached_live in R11.
  destruct (surfaces_ends sv (st_tets st) (S (S (List.length (pending s11)))) (mkSurfSt [] [] false) [] line6 s11 R11 ltac:(lia)) as [NS HS].
  apply bind_nohang; [exact NS|]. intros [[[ss hs] line7] s12] E12. apply HS in E12.
  apply bind_nohang; [|intros [bs bad] _; discriminate]. apply blocks_end; [assumption|lia].
Qed.
End Reader.
