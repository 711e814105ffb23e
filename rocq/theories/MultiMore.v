(** * Files made of several curves or of several point sets. *)
From Coq Require Import ZArith List Lia Bool Ascii String.
From Verif Require Import Base Text TextFacts GocadModel MeshModel TsModel Spec GocadFacts TsFacts CrlfFacts
  StreamFacts MultiFacts.
Import ListNotations.
Local Open Scope string_scope.
Local Open Scope list_scope.
Local Open Scope Z_scope.

(** The last line of the file is END. *)
Definition ends_with_END (ls : list bytes) : Prop :=
  exists init l r, ls = init ++ [l] /\ string_split l = lit "END" :: r.
Lemma ends_suffix a b : suffix b a -> b <> [] -> ends_with_END a -> ends_with_END b.
Proof.
  intros [p ->] Hb [init [l [r [E S]]]]. destruct (exists_last Hb) as [b' [x Hx]]. subst b.
  rewrite app_assoc in E. apply app_inj_tail in E as [_ ->]. now exists b', l, r.
Qed.
Section Local.
Context (more : list bytes) (b' : bool).
Lemma ilines_loop_ext F ec ls x : ends_with_END ls -> ilines_loop F ec ls = Ok x ->
  ilines_loop F ec (ls ++ more) = Ok (fst x, snd x ++ more).
Proof.
  intros He. revert ec. induction ls as [|l r IH]; intros ec.
  { destruct He as [[|? ?] [? [? [E _]]]]; discriminate. }
  cbn [ilines_loop app]. intros H. apply bind_ok in H as [[ec' st] [H1 H]]. rewrite H1. cbn [bind].
  destruct st; [now injection H as <-|]. destruct r as [|l2 r].
  - destruct He as [init [l' [t [E S]]]]. destruct init as [|? [|]]; try discriminate. injection E as <-.
    unfold iline_line in H1. rewrite S in H1. cbn [front bind] in H1. destruct ec. discriminate.
  - apply IH; [|assumption]. eapply ends_suffix; [|discriminate|exact He]. now exists [l].
Qed.
Lemma read_ecurve_ext F s ec s' : ends_with_END (pending s) -> read_ecurve F s = Ok (Some ec, s') ->
  read_ecurve F (ext more b' s) = Ok (Some ec, ext more b' s').
Proof.
  intros He. unfold read_ecurve. destruct (goto_if _ s) as [[l|] t] eqn:E; [|discriminate]. intros H.
  rewrite (goto_if_ext more b' _ _ _ _ E). apply goto_if_suffix in E. apply suffix_tl in E.
  apply bind_ok in H as [[n s1] [H1 H]]. apply bind_ok in H as [[c s2] [H2 H]].
  apply bind_ok in H as [[ts1 s4] [H4 H]]. injection H as <- <-.
  rewrite (read_header_ext more b' _ _ H1). cbn [bind fst snd].
  unfold read_ilines in H4. apply bind_ok in H4 as [[x s5] [H5 H4]].
  pose proof (goto_nonnil _ _ _ _ H5) as N2.
  rewrite (read_CRS_ext more b' _ (c, s2) N2 H2). cbn [bind fst snd].
  unfold read_ilines. rewrite (goto_keyword_ext more b' _ _ _ _ H5). cbn [bind].
  apply bind_ok in H4 as [[ec2 r] [H6 H4]]. injection H4 as <- <-. cbn [ext pending].
  apply read_header_suffix in H1. apply read_CRS_suffix in H2. cbn [snd] in *.
  pose proof (goto_keyword_suffix _ _ _ _ H5) as S5.
  assert (S : suffix (x :: pending s5) (pending s)) by (repeat (eapply suffix_trans; [eassumption|]); apply suffix_refl).
  assert (N5 : pending s5 <> []).
  { intros N. rewrite N in S. apply (ends_suffix _ _ S) in He; [|discriminate].
    destruct He as [init [l' [t' [Ee Se]]]]. destruct init as [|? [|]]; try discriminate. injection Ee as <-.
    unfold goto_keyword, goto_if in H5. destruct (scan _ (pending s2)) as [[y z]|] eqn:Es; [|discriminate].
    injection H5 as -> _. clear -Es Se.
    assert (starts_with x (lit "ILINE") = true).
    { induction (pending s2) as [|q r IH]; [discriminate|]. cbn [scan] in Es.
      destruct (starts_with q _) eqn:Eq; [|auto]. injection Es as <- _. exact Eq. }
    destruct x as [|c x]; [discriminate|]. cbn [starts_with lit list_ascii_of_string] in H.
    apply andb_true_iff in H as [Hc _]. apply Ascii.eqb_eq in Hc. subst c.
    unfold string_split, strip in Se.
    (* the first word of the line starts with I *)
    assert (G : forall l : bytes, exists t, rev (drop_while isspace (rev (("I"%char : ascii) :: l))) = ("I"%char : ascii) :: t).
    { intros l. destruct (drop_while_split isspace (rev (("I"%char : ascii) :: l))) as [a [Ea Fa]].
      assert (R := f_equal (@rev ascii) Ea). rewrite rev_involutive, rev_app_distr in R.
      destruct (rev (drop_while isspace (rev (("I"%char : ascii) :: l)))) as [|h t] eqn:Er.
      - cbn [app] in R. exfalso. assert (In ("I"%char : ascii) (rev a)) as Hin by (rewrite <- R; now left).
        apply in_rev in Hin. rewrite Forall_forall in Fa. apply Fa in Hin. discriminate.
      - cbn [app] in R. injection R as <- _. now exists t. }
    destruct (G x) as [t Et]. rewrite Et in Se. cbn [drop_while isspace] in Se.
    change (isspace "I") with false in Se. cbv iota in Se. unfold words in Se. cbn [split_run] in Se.
    change (is_sep "I") with false in Se. cbv iota in Se. cbn [app] in Se.
    assert (W : forall l cur, exists u v, split_run (("I"%char : ascii) :: cur) l = (("I"%char : ascii) :: u) :: v).
    { induction l as [|h l IH]; intros cur; cbn [split_run flush].
      - eauto.
      - destruct (is_sep h); [cbn [flush app]; eauto|]. apply IH. }
    destruct (W t []) as [u [v Euv]]. rewrite Euv in Se. discriminate. }
  rewrite (ilines_loop_ext F _ _ (ec2, r)); [reflexivity| |exact H6].
  eapply ends_suffix; [|exact N5|exact He]. eapply suffix_tl. exact S.
Qed.
End Local.

Lemma read_pl_loop_app F f1 (m m1 : mesh F edge) s more b' :
  pending s = [] \/ ends_with_END (pending s) ->
  read_pl_loop f1 m s = Ok m1 ->
  forall f, (List.length (pending s ++ more) < f)%nat ->
  read_pl_loop f m (ext more b' s) = read_pl_loop (S (List.length more)) m1 (mkStream more b').
Proof.
  revert m s. induction f1 as [|f1 IH]; intros m s He H f Hf; [discriminate|].
  cbn [read_pl_loop] in H. destruct (read_ecurve F s) as [[[ec|] s1]| | |] eqn:E; cbn [bind] in H; try discriminate.
  - assert (Hn : pending s <> []).
    { apply read_ecurve_suffix in E as [l [p E]]. rewrite E. now destruct p. }
    destruct He as [He|He]; [contradiction|].
    destruct f as [|f]; [lia|]. cbn [read_pl_loop]. rewrite (read_ecurve_ext more b' _ _ _ _ He E). cbn [bind].
    apply bind_ok in H as [m2 [H1 H]]. rewrite H1. cbn [bind].
    apply read_ecurve_suffix in E as [l E]. apply IH; [|assumption|].
    + destruct (pending s1) eqn:E1; [now left|right]. eapply ends_suffix; [|discriminate|exact He].
      eapply suffix_tl. exact E.
    + apply (suffix_strict l _ _ tt) in E. rewrite app_length in *. lia.
  - injection H as <-. unfold read_ecurve in E. destruct (goto_if _ s) as [[l|] t] eqn:Eg.
    { exfalso. cbn [bind] in E. repeat (apply bind_ok in E as [[? ?] [_ E]]). discriminate. }
    rewrite (read_pl_loop_fuel F f (S f)) by (cbn [ext pending]; lia).
    rewrite (read_pl_loop_fuel F (S (List.length more)) (S f)) by (cbn [pending]; rewrite ?app_length in Hf; lia).
    cbn [read_pl_loop]. unfold read_ecurve.
    assert (Hs : scan (fun l => starts_with l (lit "GOCAD PLine")) (pending s) = None).
    { unfold goto_if in Eg. destruct (scan _ _) as [[? ?]|]; [discriminate|reflexivity]. }
    unfold goto_if. cbn [ext pending nl]. rewrite (scan_none_ext more _ _ Hs).
    destruct (scan _ more) as [[? ?]|]; reflexivity.
Qed.
Lemma read_vs_loop_app F f1 (m m1 : mesh F unit) s more b' :
  read_vs_loop f1 m s = Ok m1 ->
  forall f, (List.length (pending s ++ more) < f)%nat ->
  read_vs_loop f m (ext more b' s) = read_vs_loop (S (List.length more)) m1 (mkStream more b').
Proof.
  revert m s. induction f1 as [|f1 IH]; intros m s H f Hf; [discriminate|].
  cbn [read_vs_loop] in H. destruct (read_vs_points F s) as [[[ts|] s1]| | |] eqn:E; cbn [bind] in H; try discriminate.
  - destruct f as [|f]; [lia|]. cbn [read_vs_loop]. rewrite (read_vs_points_ext more b' _ _ _ _ E). cbn [bind].
    apply bind_ok in H as [m2 [H1 H]]. rewrite H1. cbn [bind]. apply IH; [assumption|].
    apply read_vs_points_suffix in E as [l E]. apply (suffix_strict l _ _ tt) in E.
    rewrite app_length in *. lia.
  - injection H as <-. unfold read_vs_points in E. destruct (goto_if _ s) as [[l|] t] eqn:Eg.
    { exfalso. cbn [bind] in E. repeat (apply bind_ok in E as [[? ?] [_ E]]). discriminate. }
    rewrite (read_vs_loop_fuel F f (S f)) by (cbn [ext pending]; lia).
    rewrite (read_vs_loop_fuel F (S (List.length more)) (S f)) by (cbn [pending]; rewrite ?app_length in Hf; lia).
    cbn [read_vs_loop]. unfold read_vs_points.
    assert (Hs : scan (fun l => starts_with l (lit "GOCAD VSet")) (pending s) = None).
    { unfold goto_if in Eg. destruct (scan _ _) as [[? ?]|]; [discriminate|reflexivity]. }
    unfold goto_if. cbn [ext pending nl]. rewrite (scan_none_ext more _ _ Hs).
    destruct (scan _ more) as [[? ?]|]; reflexivity.
Qed.

Section Curves.
Context (F : Num).
Definition edge_in (n : Z) (e : edge) : Prop := 0 <= fst e < n /\ 0 <= snd e < n.
Lemma create_edges_fields es (m m' : mesh F edge) : foldM create_edge es m = Ok m' ->
  m_name m' = m_name m /\ m_points m' = m_points m /\ m_cells m' = m_cells m ++ es /\ m_attrs m' = m_attrs m /\
  Forall (edge_in (nb_vertices m)) es.
Proof.
  revert m. induction es as [|t r IH]; intros m H; cbn [foldM] in H.
  { injection H as <-. rewrite app_nil_r. auto 6. }
  apply bind_ok in H as [m1 [H1 H]]. apply IH in H as [E1 [E2 [E3 [E4 E5]]]].
  unfold create_edge in H1. destruct t as [a b]. destruct (_ && _) eqn:E; [|discriminate].
  injection H1 as <-. unfold add_cell, nb_vertices in *. cbn [m_name m_points m_cells m_attrs] in *.
  rewrite E1, E2, E3, E4, <- app_assoc. repeat split. constructor; [|assumption].
  unfold edge_in. cbn [fst snd]. apply andb_true_iff in E as [Ea Eb]. unfold valid_vertex, nb_vertices in *.
  apply andb_true_iff in Ea as [Ea1 Ea2]. apply andb_true_iff in Eb as [Eb1 Eb2].
  apply Z.leb_le in Ea1, Eb1. apply Z.ltb_lt in Ea2, Eb2. lia.
Qed.
Lemma create_edges_ok es (m : mesh F edge) : Forall (edge_in (nb_vertices m)) es ->
  exists m', foldM create_edge es m = Ok m'.
Proof.
  revert m. induction es as [|[a b] r IH]; intros m H; [now exists m|].
  pose proof (Forall_inv H) as H1. pose proof (Forall_inv_tail H) as H2. cbn [foldM].
  unfold create_edge, valid_vertex. unfold edge_in in H1. cbn [fst snd] in H1.
  rewrite !(proj2 (Z.leb_le _ _)), !(proj2 (Z.ltb_lt _ _)) by lia. cbn [andb bind]. apply IH. exact H2.
Qed.
Definition plus_edge (k : Z) (e : edge) : edge := (fst e + k, snd e + k).
Definition pl_glued (m1 m2 m : mesh F edge) : Prop :=
  m_name m = match m_name m2 with Some n => Some n | None => m_name m1 end /\
  m_points m = m_points m1 ++ m_points m2 /\
  m_cells m = m_cells m1 ++ map (plus_edge (nb_vertices m1)) (m_cells m2).
Definition pl_placed (off : Z) (ec : ECurve F) : list edge :=
  map (fun e => (add32 (fst e) off, add32 (snd e) off)) (e_edges ec).
Lemma build_curve_fields (m m' : mesh F edge) ec : build_curve m ec = Ok m' ->
  m_name m' = match e_name ec with Some n => Some n | None => m_name m end /\
  m_points m' = m_points m ++ e_points ec /\
  m_cells m' = m_cells m ++ pl_placed (nb_vertices m) ec /\
  Forall (edge_in (nb_vertices m')) (pl_placed (nb_vertices m) ec).
Proof.
  unfold build_curve. cbn zeta. intros H. apply create_edges_fields in H as [E1 [E2 [E3 [E4 E5]]]].
  destruct (create_points_fields F (e_points ec) (set_name (e_name ec) m)) as [P1 [P2 P3]].
  destruct (set_name_fields F (e_name ec) m) as [N1 [N2 [N3 N4]]].
  split; [congruence|]. split; [congruence|]. split; [unfold pl_placed; congruence|].
  unfold nb_vertices in *. rewrite E2. exact E5.
Qed.
Lemma build_curve_glued m1 m2 m ec m2' : pl_glued m1 m2 m -> build_curve m2 ec = Ok m2' ->
  nb_vertices m1 + nb_vertices m2' < two32 -> exists m', build_curve m ec = Ok m' /\ pl_glued m1 m2' m'.
Proof.
  intros G H Ht. pose proof (build_curve_fields _ _ _ H) as [E1 [E2 [E3 E4]]]. destruct G as [G1 [G2 G3]].
  assert (Hn : nb_vertices m = nb_vertices m1 + nb_vertices m2).
  { unfold nb_vertices, lenz. rewrite G2, app_length. lia. }
  assert (Hp : pl_placed (nb_vertices m) ec = map (plus_edge (nb_vertices m1)) (pl_placed (nb_vertices m2) ec)).
  { unfold pl_placed in *. rewrite map_map. rewrite Forall_map in E4. apply map_ext_in. intros [a b] Hi.
    rewrite Forall_forall in E4. apply E4 in Hi. unfold edge_in, plus_edge in *. cbn [fst snd] in *.
    pose proof (nb_nonneg F m1).
    rewrite Hn, (Z.add_comm (nb_vertices m1)), <- !add32_add32.
    rewrite (add32_small (add32 a _)), (add32_small (add32 b _)) by lia. reflexivity. }
  assert (X : exists m', build_curve m ec = Ok m').
  { unfold build_curve. cbn zeta. apply create_edges_ok. fold (pl_placed (nb_vertices m) ec). rewrite Hp.
    apply Forall_map. eapply Forall_impl; [|exact E4]. intros [a b] Hi. unfold edge_in, plus_edge in *. cbn [fst snd] in *.
    destruct (create_points_fields F (e_points ec) (set_name (e_name ec) m)) as [_ [P2 _]].
    destruct (set_name_fields F (e_name ec) m) as [N1 _].
    assert (nb_vertices (create_points (e_points ec) (set_name (e_name ec) m)) = nb_vertices m1 + nb_vertices m2') as ->.
    { unfold nb_vertices, lenz in *. rewrite P2, N1, E2, G2, !app_length. lia. }
    pose proof (nb_nonneg F m1). lia. }
  destruct X as [m' X]. exists m'. split; [assumption|]. apply build_curve_fields in X as [X1 [X2 [X3 _]]]. repeat split.
  - rewrite X1, E1, G1. destruct (e_name ec); reflexivity.
  - rewrite X2, E2, G2. now rewrite app_assoc.
  - rewrite X3, E3, G3, Hp, map_app. now rewrite app_assoc.
Qed.
Lemma read_pl_loop_grows f m s m' : read_pl_loop f m s = Ok m' -> nb_vertices (F:=F) m <= nb_vertices m'.
Proof.
  revert m s. induction f as [|f IH]; intros m s H; [discriminate|]. cbn [read_pl_loop] in H.
  destruct (read_ecurve F s) as [[[ts|] s1]| | |]; cbn [bind] in H; try discriminate.
  - apply bind_ok in H as [m1 [H1 H]]. apply IH in H. apply build_curve_fields in H1 as [_ [E _]].
    unfold nb_vertices, lenz in *. rewrite E, app_length in H. lia.
  - injection H as <-. lia.
Qed.
Lemma read_pl_loop_glued f m1 m2 m s m2' : pl_glued m1 m2 m ->
  read_pl_loop f m2 s = Ok m2' -> nb_vertices m1 + nb_vertices m2' < two32 ->
  exists m', read_pl_loop f m s = Ok m' /\ pl_glued m1 m2' m'.
Proof.
  revert m2 m s. induction f as [|f IH]; intros m2 m s G H Ht; [discriminate|]. cbn [read_pl_loop] in *.
  destruct (read_ecurve F s) as [[[ts|] s1]| | |]; cbn [bind] in H |- *; try discriminate.
  - apply bind_ok in H as [k2 [H1 H]].
    destruct (build_curve_glued m1 m2 m ts k2 G H1) as [k [Hk Gk]].
    { apply read_pl_loop_grows in H. lia. }
    rewrite Hk. cbn [bind]. now apply (IH k2 k s1).
  - injection H as <-. eauto.
Qed.
Lemma read_pl_glued ls1 ls2 m1 m2 : Forall is_line ls1 -> Forall is_line ls2 -> ends_with_END ls1 ->
  read_pl F (unlines ls1) = Ok m1 -> read_pl F (unlines ls2) = Ok m2 -> nb_vertices m1 + nb_vertices m2 < two32 ->
  exists m, read_pl F (unlines (ls1 ++ ls2)) = Ok m /\ pl_glued m1 m2 m.
Proof.
  intros L1 L2 He H1 H2 Ht. unfold read_pl in *. rewrite open_unlines in * by (try apply Forall_app; auto).
  cbn [pending] in *.
  pose proof (read_pl_loop_app F _ _ _ (mkStream ls1 true) ls2 true (or_intror He) H1 (S (List.length (ls1 ++ ls2))) ltac:(cbn [pending]; lia)) as E.
  unfold ext in E. cbn [pending] in E. rewrite E.
  apply (read_pl_loop_glued (S (List.length ls2)) m1 empty_mesh m1 (mkStream ls2 true) m2); auto.
  repeat split; cbn; now rewrite app_nil_r.
Qed.
End Curves.

Section Points.
Context (F : Num).
Lemma build_point_set_fields (m m' : mesh F unit) vs : build_point_set m vs = Ok m' ->
  m_name m' = match v_name vs with Some n => Some n | None => m_name m end /\
  m_points m' = m_points m ++ v_points vs /\ (wf_attrs F m -> wf_attrs F m').
Proof.
  unfold build_point_set, create_attributes. cbn zeta. intros H.
  apply create_attributes_loop_fields in H as [D1 [D2 [D3 D4]]].
  destruct (create_points_fields F (v_points vs) (set_name (v_name vs) m)) as [P1 [P2 P3]].
  destruct (set_name_fields F (v_name vs) m) as [N1 [N2 [N3 N4]]].
  split; [congruence|]. split; [congruence|]. intros Hw. apply D4. apply create_points_wf.
  unfold wf_attrs. now rewrite N3, N1.
Qed.
Definition vs_glued (m1 m2 m : mesh F unit) : Prop :=
  m_name m = match m_name m2 with Some n => Some n | None => m_name m1 end /\
  m_points m = m_points m1 ++ m_points m2.
Lemma build_point_set_glued m1 m2 m vs m2' : wf_attrs F m2 -> wf_attrs F m -> vs_glued m1 m2 m ->
  build_point_set m2 vs = Ok m2' -> agree F (m_attrs m) (m_attrs m2') ->
  exists m', build_point_set m vs = Ok m' /\ vs_glued m1 m2' m' /\
    forall p t, kind F (m_attrs m') p = Some t -> kind F (m_attrs m) p = Some t \/ kind F (m_attrs m2') p = Some t.
Proof.
  intros W2 W [G1 G2] H Ha. pose proof (build_point_set_fields _ _ _ H) as [E1 [E2 _]].
  assert (X : exists m', build_point_set m vs = Ok m' /\
    forall p t, kind F (m_attrs m') p = Some t -> kind F (m_attrs m) p = Some t \/ kind F (m_attrs m2') p = Some t).
  { unfold build_point_set, create_attributes in *. cbn zeta in *.
    destruct (create_points_fields F (v_points vs) (set_name (v_name vs) m)) as [_ [P2 _]].
    destruct (set_name_fields F (v_name vs) m) as [N1 [_ [N3 _]]].
    destruct (create_points_fields F (v_points vs) (set_name (v_name vs) m2)) as [_ [P2' _]].
    destruct (set_name_fields F (v_name vs) m2) as [N1' [_ [N3' _]]].
    set (k := create_points (v_points vs) (set_name (v_name vs) m)) in *.
    assert (Kk : forall p, kind F (m_attrs k) p = kind F (m_attrs m) p).
    { intros p. unfold k. now rewrite create_points_kind, N3. }
    destruct (create_attributes_ok F _ _ _ _ _ _ _ _ k H) as [k' [Hk' Kk']]; [ | | | |exists k'; split; [exact Hk'|]].
    - apply create_points_wf. unfold wf_attrs. rewrite N3', N1'. exact W2.
    - apply create_points_wf. unfold wf_attrs. rewrite N3, N1. exact W.
    - rewrite P2, P2', N1, N1', G2, !app_length. lia.
    - intros p t t'. rewrite Kk. apply Ha.
    - intros p t Hpt. rewrite <- Kk. now apply Kk'. }
  destruct X as [m' [X XK]]. exists m'. split; [assumption|]. split; [|exact XK].
  apply build_point_set_fields in X as [X1 [X2 _]]. split.
  - rewrite X1, E1, G1. destruct (v_name vs); reflexivity.
  - rewrite X2, E2, G2. now rewrite app_assoc.
Qed.
Lemma build_point_set_kinds (m m' : mesh F unit) vs : build_point_set m vs = Ok m' ->
  forall p t, kind F (m_attrs m) p = Some t -> kind F (m_attrs m') p = Some t.
Proof.
  unfold build_point_set, create_attributes. cbn zeta. intros H p t Hp.
  eapply create_attributes_kinds; [exact H|]. destruct (set_name_fields F (v_name vs) m) as [_ [_ [N3 _]]].
  now rewrite create_points_kind, N3.
Qed.
Lemma read_vs_loop_kinds f m s m' : read_vs_loop f m s = Ok m' ->
  forall p t, kind F (m_attrs m) p = Some t -> kind F (m_attrs m') p = Some t.
Proof.
  revert m s. induction f as [|f IH]; intros m s H p t Hp; [discriminate|]. cbn [read_vs_loop] in H.
  destruct (read_vs_points F s) as [[[ts|] s1]| | |]; cbn [bind] in H; try discriminate.
  - apply bind_ok in H as [m1 [H1 H]]. eapply IH; [exact H|]. eapply build_point_set_kinds; eassumption.
  - now injection H as <-.
Qed.
Lemma read_vs_loop_glued f m1 m2 m s m2' : wf_attrs F m2 -> wf_attrs F m -> vs_glued m1 m2 m ->
  read_vs_loop f m2 s = Ok m2' -> agree F (m_attrs m) (m_attrs m2') ->
  exists m', read_vs_loop f m s = Ok m' /\ vs_glued m1 m2' m' /\
    forall p t, kind F (m_attrs m') p = Some t -> kind F (m_attrs m) p = Some t \/ kind F (m_attrs m2') p = Some t.
Proof.
  revert m2 m s. induction f as [|f IH]; intros m2 m s W2 W G H Ha; [discriminate|]. cbn [read_vs_loop] in *.
  destruct (read_vs_points F s) as [[[ts|] s1]| | |]; cbn [bind] in H |- *; try discriminate.
  - apply bind_ok in H as [k2 [H1 H]].
    pose proof (read_vs_loop_kinds _ _ _ _ H) as M.
    destruct (build_point_set_glued m1 m2 m ts k2 W2 W G H1) as [k [Hk [Gk Kk]]].
    { intros p t t' Hp Hp'. eapply Ha; [exact Hp|]. now apply M. }
    rewrite Hk. cbn [bind]. destruct (IH k2 k s1) as [m' [Hm' [Gm' Km']]]; auto.
    + apply build_point_set_fields in H1 as [_ [_ H1]]. auto.
    + apply build_point_set_fields in Hk as [_ [_ Hk]]. auto.
    + intros p t t' Hp Hp'. destruct (Kk p t Hp) as [Q|Q]; [eapply Ha; eassumption|]. apply M in Q. congruence.
    + exists m'. split; [assumption|]. split; [assumption|]. intros p t Hp. destruct (Km' p t Hp) as [Q|Q]; [|now right].
      destruct (Kk p t Q) as [Q'|Q']; [now left|right; now apply M].
  - injection H as <-. eauto.
Qed.
Lemma read_vs_loop_wf f m s m' : wf_attrs F m -> read_vs_loop f m s = Ok m' -> wf_attrs F m'.
Proof.
  revert m s. induction f as [|f IH]; intros m s Hw H; [discriminate|]. cbn [read_vs_loop] in H.
  destruct (read_vs_points F s) as [[[ts|] s1]| | |]; cbn [bind] in H; try discriminate.
  - apply bind_ok in H as [m1 [H1 H]]. eapply IH; [|exact H]. apply build_point_set_fields in H1 as [_ [_ H1]]. auto.
  - now injection H as <-.
Qed.
Lemma read_vs_glued ls1 ls2 m1 m2 : Forall is_line ls1 -> Forall is_line ls2 ->
  read_vs F (unlines ls1) = Ok m1 -> read_vs F (unlines ls2) = Ok m2 -> agree F (m_attrs m1) (m_attrs m2) ->
  exists m, read_vs F (unlines (ls1 ++ ls2)) = Ok m /\ vs_glued m1 m2 m.
Proof.
  intros L1 L2 H1 H2 Ha. unfold read_vs in *. rewrite open_unlines in * by (try apply Forall_app; auto).
  cbn [pending] in *.
  pose proof (read_vs_loop_app F _ _ _ _ ls2 true H1 (S (List.length (ls1 ++ ls2))) ltac:(cbn [pending]; lia)) as E.
  unfold ext in E. cbn [pending] in E. rewrite E.
  assert (W0 : wf_attrs F (@empty_mesh F unit)) by constructor.
  destruct (read_vs_loop_glued (S (List.length ls2)) m1 empty_mesh m1 (mkStream ls2 true) m2) as [m [Hm [G _]]]; [ | | | | |eauto]; auto.
  - eapply read_vs_loop_wf; [exact W0|exact H1].
  - split; cbn; now rewrite ?app_nil_r.
Qed.
End Points.
