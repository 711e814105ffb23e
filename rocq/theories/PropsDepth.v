(** * ZPOSITIVE (C07). *)
From Coq Require Import ZArith List Lia Bool Ascii String.
From Verif Require Import Base Text TextFacts GocadModel MeshModel TsModel Spec GocadFacts CrlfFacts
  TsFacts DepthFacts StreamFacts ExNum ExCheck PropsTsVs.
Import ListNotations.
Local Open Scope string_scope.
Local Open Scope list_scope.
Local Open Scope Z_scope.

(** The lines of one object with a coordinate system section:
    [g] its GOCAD line, [hd hb cl] its HEADER block, [cb] ... [ce] its coordinate system, where
    [z] is the ZPOSITIVE line, and [rest] everything after. *)
Definition object_lines (g hd : bytes) (hb : list bytes) (cl cb : bytes) (c1 : list bytes) (z : bytes)
    (c2 : list bytes) (ce : bytes) (rest : list bytes) : list bytes :=
  g :: hd :: hb ++ cl :: cb :: c1 ++ z :: c2 ++ ce :: rest.
(** [kw] is the keyword of the object (GOCAD TSurf, ...), which does not occur again. *)
Definition object_ok (kw g hd : bytes) (hb : list bytes) (cl cb : bytes) (c1 c2 : list bytes)
    (ce : bytes) (rest : list bytes) : Prop :=
  starts_with g kw = true /\
  starts_with hd (lit "HEADER") = true /\
  Forall (fun l => starts_with l (lit "}") = false) hb /\ starts_with cl (lit "}") = true /\
  starts_with cb (lit "GOCAD_ORIGINAL_COORDINATE_SYSTEM") = true /\
  Forall (fun l => starts_with l (lit "END_ORIGINAL_COORDINATE_SYSTEM") = false) (c1 ++ c2) /\
  Forall (fun l => forall t r, split_quotes l = Ok (t :: r) -> t <> lit "ZPOSITIVE") c2 /\
  starts_with ce (lit "END_ORIGINAL_COORDINATE_SYSTEM") = true /\
  Forall (fun l => starts_with l kw = false) rest /\
  Forall (fun l => ~ In LF l) (object_lines g hd hb cl cb c1 [] c2 ce rest).

(** Same outcome; a loaded mesh only differs by the sign of z. *)
Definition depth_of {F C} (m m' : mesh F C) : Prop :=
  m_name m' = m_name m /\ m_cells m' = m_cells m /\ m_attrs m' = m_attrs m /\
  Forall2 (fun p p' => p' = (fst (fst p), snd (fst p), neg F (snd p))) (m_points m) (m_points m').
Definition same_outcome {A} (P : A -> A -> Prop) (r r' : res A) : Prop :=
  match r, r' with
  | Ok a, Ok a' => P a a'
  | Throw e, Throw e' => e = e'
  | UB, UB => True
  | Hang, Hang => True
  | _, _ => False
  end.

Lemma depth_map_pts {F C} (m : mesh F C) : depth_of m (map_pts F (negz F) m).
Proof.
  repeat split. unfold map_pts. cbn [m_points]. induction (m_points m) as [|[[x y] z] r IH]; constructor; auto.
Qed.
Lemma same_outcome_rmap {A} (P : A -> A -> Prop) f (r : res A) : (forall a, P a (f a)) ->
  same_outcome P r (rmap f r).
Proof. destruct r; simpl; auto. Qed.

Lemma header_block n hb cl : Forall (fun l => starts_with l (lit "}") = false) hb ->
  starts_with cl (lit "}") = true ->
  exists n', forall ls, header_loop n (hb ++ cl :: ls) = Ok (n', ls).
Proof.
  intros H Hc. revert n. induction H as [|l r Hl Hr IH]; intros n.
  - exists n. intros ls. cbn [app header_loop]. now rewrite Hc.
  - cbn [app header_loop]. rewrite Hl. destruct (after_first _ l); apply IH.
Qed.
Lemma read_header_block hd hb cl : starts_with hd (lit "HEADER") = true ->
  Forall (fun l => starts_with l (lit "}") = false) hb -> starts_with cl (lit "}") = true ->
  exists n, forall ls b, read_header (mkStream (hd :: hb ++ cl :: ls) b) = Ok (n, mkStream ls b).
Proof.
  intros H1 H2 H3. destruct (header_block None hb cl H2 H3) as [n Hn]. exists n. intros ls b.
  unfold read_header, check_keyword. cbn [pending]. rewrite H1. cbn [bind pending]. now rewrite Hn.
Qed.
Lemma zline_line b : is_line (zline b).
Proof. destruct b; apply lineb_ok; reflexivity. Qed.
Lemma object_is_lines kw g hd hb cl cb c1 c2 ce rest b :
  object_ok kw g hd hb cl cb c1 c2 ce rest ->
  Forall is_line (object_lines g hd hb cl cb c1 (zline b) c2 ce rest).
Proof.
  intros [_ [_ [_ [_ [_ [_ [_ [_ [_ H]]]]]]]]]. unfold object_lines in *.
  inversion H as [|? ? H1 H2]; subst. inversion H2 as [|? ? H3 H4]; subst.
  apply Forall_app in H4 as [H5 H6]. inversion H6 as [|? ? H7 H8]; subst.
  inversion H8 as [|? ? H9 H10]; subst. apply Forall_app in H10 as [H11 H12].
  inversion H12 as [|? ? H13 H14]; subst.
  repeat (apply Forall_cons; [assumption|]). apply Forall_app; split; [assumption|].
  repeat (apply Forall_cons; [assumption|]). apply Forall_app; split; [assumption|].
  apply Forall_cons; [apply zline_line|assumption].
Qed.
Lemma Forall_app_l {A} (P : A -> Prop) a b : Forall P (a ++ b) -> Forall P a /\ Forall P b.
Proof. apply Forall_app. Qed.

(** One object up to the end of its coordinate system, then the remaining file. *)
Lemma object_front kw g hd hb cl cb c1 c2 ce rest :
  object_ok kw g hd hb cl cb c1 c2 ce rest ->
  exists n (r : res CRS), (forall c, r = Ok c -> z_sign_positive c = true) /\
  forall (A : Type) (k : option bytes -> CRS -> istream -> res A) b nlb,
  goto_if kw (mkStream (object_lines g hd hb cl cb c1 (zline b) c2 ce rest) nlb)
    = (Some g, mkStream (tl (object_lines g hd hb cl cb c1 (zline b) c2 ce rest)) nlb) /\
  (do '(name, s2) <- read_header (mkStream (tl (object_lines g hd hb cl cb c1 (zline b) c2 ce rest)) nlb);
   do '(crs, s3) <- read_CRS s2; k name crs s3)
  = do c <- r; k n (set_z b c) (mkStream rest nlb).
Proof.
  intros [H1 [H2 [H3 [H4 [H5 [H6 [H7 [H8 [H9 H10]]]]]]]]].
  destruct (read_header_block hd hb cl H2 H3 H4) as [n Hn].
  apply Forall_app in H6 as [H6a H6b].
  destruct (read_CRS_zline cb c1 c2 ce H5 H6a H6b H7 H8) as [r [Hr Hcr]].
  exists n, r. split; [exact Hr|]. intros A k b nlb. unfold object_lines. cbn [tl]. split.
  - now apply goto_if_next.
  - rewrite Hn. cbn [bind]. rewrite Hcr. rewrite bind_assoc. reflexivity.
Qed.

Lemma no_more {A} (P : bytes -> Prop) (s' : list bytes) (rest : list bytes) (x : A) :
  suffix s' rest -> Forall P rest -> Forall P s'.
Proof. intros H. now apply suffix_Forall. Qed.

(** C07 for TSurf. *)
Theorem C07_ts_depth :
  forall (F : Num) g hd hb cl cb c1 c2 ce rest,
    object_ok (lit "GOCAD TSurf") g hd hb cl cb c1 c2 ce rest ->
    same_outcome depth_of
      (read_ts F (unlines (object_lines g hd hb cl cb c1 (lit "ZPOSITIVE Elevation") c2 ce rest)))
      (read_ts F (unlines (object_lines g hd hb cl cb c1 (lit "ZPOSITIVE Depth") c2 ce rest))).
Proof.
  intros F g hd hb cl cb c1 c2 ce rest H.
  pose proof (object_is_lines _ _ _ _ _ _ _ _ _ _ true H) as L1.
  pose proof (object_is_lines _ _ _ _ _ _ _ _ _ _ false H) as L2.
  change (lit "ZPOSITIVE Elevation") with (zline true). change (lit "ZPOSITIVE Depth") with (zline false).
  unfold read_ts. rewrite !open_unlines by assumption. cbn [pending].
  assert (E : List.length (object_lines g hd hb cl cb c1 (zline false) c2 ce rest)
            = List.length (object_lines g hd hb cl cb c1 (zline true) c2 ce rest)).
  { unfold object_lines. cbn [List.length]. rewrite !app_length. cbn [List.length]. rewrite !app_length. reflexivity. }
  rewrite E. clear E. set (fuel := List.length _).
  assert (Hf : exists f, fuel = S f) by (eexists; reflexivity). destruct Hf as [f ->].
  destruct (object_front _ _ _ _ _ _ _ _ _ _ H) as [n [r [Hr Hk]]].
  destruct H as [_ [_ [_ [_ [_ [_ [_ [_ [H9 _]]]]]]]]].
  replace (read_ts_loop (S (S f)) empty_mesh (mkStream (object_lines g hd hb cl cb c1 (zline false) c2 ce rest) true))
    with (rmap (map_pts F (negz F)) (read_ts_loop (S (S f)) empty_mesh
            (mkStream (object_lines g hd hb cl cb c1 (zline true) c2 ce rest) true))).
  { apply same_outcome_rmap. apply depth_map_pts. }
  symmetry. cbn [read_ts_loop]. unfold read_tsurf at 1 3.
  destruct (Hk _ (fun name crs s3 => do '(props, s4) <- read_prop_header F [] s3;
      let ts0 := mkTSurf 1 name crs props [] [] [0] [0] [] []
                         (map (fun _ => []) (p_names props)) in
      do '(ts, s5) <- read_tfaces F ts0 s4;
      Ok (Some ts, s5)) false true) as [E1 E2].
  destruct (Hk _ (fun name crs s3 => do '(props, s4) <- read_prop_header F [] s3;
      let ts0 := mkTSurf 1 name crs props [] [] [0] [0] [] []
                         (map (fun _ => []) (p_names props)) in
      do '(ts, s5) <- read_tfaces F ts0 s4;
      Ok (Some ts, s5)) true true) as [E3 E4].
  rewrite E1, E3. cbv beta iota zeta in E2, E4 |- *. rewrite E2, E4. clear E1 E2 E3 E4.
  destruct r as [c| | |]; try reflexivity. cbn [bind]. specialize (Hr c eq_refl).
  destruct (read_prop_header F [] (mkStream rest true)) as [[props s4]| | |] eqn:Ep; try reflexivity.
  apply read_prop_header_suffix in Ep. cbn [fst snd pending] in Ep.
  cbn [bind]. unfold read_tfaces.
  destruct (goto_keyword _ s4) as [[l s5]| | |] eqn:Eg; try reflexivity.
  apply goto_keyword_suffix in Eg. apply suffix_tl in Eg. cbn [bind].
  pose proof (tfaces_loop_flip F (pending s5)
     (mkTSurf 1 n (set_z true c) props [] [] [0] [0] [] [] (map (fun _ => []) (p_names props))) eq_refl) as Et.
  assert (Ex : flip_ts F (mkTSurf 1 n (set_z true c) props [] [] [0] [0] [] [] (map (fun _ => []) (p_names props))) = (mkTSurf 1 n (set_z false c) props [] [] [0] [0] [] [] (map (fun _ => []) (p_names props)))) by reflexivity.
  rewrite Ex in Et. clear Ex.
  rewrite Et. clear Et.
  destruct (tfaces_loop F _ (pending s5)) as [[ts r]| | |] eqn:Ef; try reflexivity.
  apply tfaces_loop_suffix in Ef. cbn [rmap bind fst snd] in *.
  assert (Hn : Forall (fun l => starts_with l (lit "GOCAD TSurf") = false) r).
  { eapply suffix_Forall; [|exact H9]. repeat (eapply suffix_trans; [eassumption|]). apply suffix_refl. }
  change (empty_mesh (F:=F) (C:=tri)) with (map_pts F (negz F) (empty_mesh (F:=F) (C:=tri))) at 1.
  rewrite build_surface_flip. rewrite bind_rmap, rmap_bind. apply bind_congr. intros m1.
  unfold read_tsurf. rewrite goto_if_none by assumption. reflexivity.
Qed.
Print Assumptions C07_ts_depth.

(** C07 for VSet. *)
Theorem C07_vs_depth :
  forall (F : Num) g hd hb cl cb c1 c2 ce rest,
    object_ok (lit "GOCAD VSet") g hd hb cl cb c1 c2 ce rest ->
    same_outcome depth_of
      (read_vs F (unlines (object_lines g hd hb cl cb c1 (lit "ZPOSITIVE Elevation") c2 ce rest)))
      (read_vs F (unlines (object_lines g hd hb cl cb c1 (lit "ZPOSITIVE Depth") c2 ce rest))).
Proof.
  intros F g hd hb cl cb c1 c2 ce rest H.
  pose proof (object_is_lines _ _ _ _ _ _ _ _ _ _ true H) as L1.
  pose proof (object_is_lines _ _ _ _ _ _ _ _ _ _ false H) as L2.
  change (lit "ZPOSITIVE Elevation") with (zline true). change (lit "ZPOSITIVE Depth") with (zline false).
  unfold read_vs. rewrite !open_unlines by assumption. cbn [pending].
  assert (E : List.length (object_lines g hd hb cl cb c1 (zline false) c2 ce rest)
            = List.length (object_lines g hd hb cl cb c1 (zline true) c2 ce rest)).
  { unfold object_lines. cbn [List.length]. rewrite !app_length. cbn [List.length]. rewrite !app_length. reflexivity. }
  rewrite E. clear E. set (fuel := List.length _).
  assert (Hf : exists f, fuel = S f) by (eexists; reflexivity). destruct Hf as [f ->].
  destruct (object_front _ _ _ _ _ _ _ _ _ _ H) as [n [r [Hr Hk]]].
  destruct H as [_ [_ [_ [_ [_ [_ [_ [_ [H9 _]]]]]]]]].
  replace (read_vs_loop (S (S f)) empty_mesh (mkStream (object_lines g hd hb cl cb c1 (zline false) c2 ce rest) true))
    with (rmap (map_pts F (negz F)) (read_vs_loop (S (S f)) empty_mesh
            (mkStream (object_lines g hd hb cl cb c1 (zline true) c2 ce rest) true))).
  { apply same_outcome_rmap. apply depth_map_pts. }
  symmetry. cbn [read_vs_loop]. unfold read_vs_points at 1 3.
  set (k := fun name crs s3 => do '(props, s4) <- read_prop_header F [] s3;
      let vs0 := mkVSet 1 name crs props [] (map (fun _ => []) (p_names props)) in
      do '(vs, s5) <- read_VSet_vertices F vs0 s4;
      Ok (Some vs, s5)).
  destruct (Hk _ k false true) as [E1 E2].
  destruct (Hk _ k true true) as [E3 E4]. subst k.
  rewrite E1, E3. cbv beta iota zeta in E2, E4 |- *. rewrite E2, E4. clear E1 E2 E3 E4.
  destruct r as [c| | |]; try reflexivity. cbn [bind]. specialize (Hr c eq_refl).
  destruct (read_prop_header F [] (mkStream rest true)) as [[props s4]| | |] eqn:Ep; try reflexivity.
  apply read_prop_header_suffix in Ep. cbn [fst snd pending] in Ep.
  cbn [bind]. unfold read_VSet_vertices.
  destruct (goto_keywords _ s4) as [[l s5]| | |] eqn:Eg; try reflexivity.
  apply goto_keywords_suffix in Eg. cbn [bind].
  pose proof (vset_loop_flip F (l :: pending s5)
     (mkVSet 1 n (set_z true c) props [] (map (fun _ => []) (p_names props))) eq_refl) as Et.
  assert (Ex : flip_vs F (mkVSet 1 n (set_z true c) props [] (map (fun _ => []) (p_names props))) = (mkVSet 1 n (set_z false c) props [] (map (fun _ => []) (p_names props)))) by reflexivity.
  rewrite Ex in Et. clear Ex.
  rewrite Et. clear Et.
  destruct (vset_loop F _ (l :: pending s5)) as [[ts r]| | |] eqn:Ef; try reflexivity.
  apply vset_loop_suffix in Ef. cbn [rmap bind fst snd] in *.
  assert (Hn : Forall (fun l => starts_with l (lit "GOCAD VSet") = false) r).
  { eapply suffix_Forall; [|exact H9]. repeat (eapply suffix_trans; [eassumption|]). apply suffix_refl. }
  change (empty_mesh (F:=F) (C:=unit)) with (map_pts F (negz F) (empty_mesh (F:=F) (C:=unit))) at 1.
  rewrite build_point_set_flip. rewrite bind_rmap, rmap_bind. apply bind_congr. intros m1.
  unfold read_vs_points. rewrite goto_if_none by assumption. reflexivity.
Qed.
Print Assumptions C07_vs_depth.

(** C07 for PLine. *)
Theorem C07_pl_depth :
  forall (F : Num) g hd hb cl cb c1 c2 ce rest,
    object_ok (lit "GOCAD PLine") g hd hb cl cb c1 c2 ce rest ->
    same_outcome depth_of
      (read_pl F (unlines (object_lines g hd hb cl cb c1 (lit "ZPOSITIVE Elevation") c2 ce rest)))
      (read_pl F (unlines (object_lines g hd hb cl cb c1 (lit "ZPOSITIVE Depth") c2 ce rest))).
Proof.
  intros F g hd hb cl cb c1 c2 ce rest H.
  pose proof (object_is_lines _ _ _ _ _ _ _ _ _ _ true H) as L1.
  pose proof (object_is_lines _ _ _ _ _ _ _ _ _ _ false H) as L2.
  change (lit "ZPOSITIVE Elevation") with (zline true). change (lit "ZPOSITIVE Depth") with (zline false).
  unfold read_pl. rewrite !open_unlines by assumption. cbn [pending].
  assert (E : List.length (object_lines g hd hb cl cb c1 (zline false) c2 ce rest)
            = List.length (object_lines g hd hb cl cb c1 (zline true) c2 ce rest)).
  { unfold object_lines. cbn [List.length]. rewrite !app_length. cbn [List.length]. rewrite !app_length. reflexivity. }
  rewrite E. clear E. set (fuel := List.length _).
  assert (Hf : exists f, fuel = S f) by (eexists; reflexivity). destruct Hf as [f ->].
  destruct (object_front _ _ _ _ _ _ _ _ _ _ H) as [n [r [Hr Hk]]].
  destruct H as [_ [_ [_ [_ [_ [_ [_ [_ [H9 _]]]]]]]]].
  replace (read_pl_loop (S (S f)) empty_mesh (mkStream (object_lines g hd hb cl cb c1 (zline false) c2 ce rest) true))
    with (rmap (map_pts F (negz F)) (read_pl_loop (S (S f)) empty_mesh
            (mkStream (object_lines g hd hb cl cb c1 (zline true) c2 ce rest) true))).
  { apply same_outcome_rmap. apply depth_map_pts. }
  symmetry. cbn [read_pl_loop]. unfold read_ecurve at 1 3.
  set (k := fun name crs s3 =>
      do '(ec, s4) <- read_ilines F (mkECurve 1 name crs [] []) s3;
      Ok (Some ec, s4)).
  destruct (Hk _ k false true) as [E1 E2].
  destruct (Hk _ k true true) as [E3 E4]. subst k.
  rewrite E1, E3. cbv beta iota zeta in E2, E4 |- *. rewrite E2, E4. clear E1 E2 E3 E4.
  destruct r as [c| | |]; try reflexivity. cbn [bind]. specialize (Hr c eq_refl).
  unfold read_ilines.
  destruct (goto_keyword _ (mkStream rest true)) as [[l s5]| | |] eqn:Eg; try reflexivity.
  apply goto_keyword_suffix in Eg. apply suffix_tl in Eg. cbn [bind].
  pose proof (ilines_loop_flip F (pending s5)
     (mkECurve 1 n (set_z true c) [] []) eq_refl) as Et.
  assert (Ex : flip_ec F (mkECurve 1 n (set_z true c) [] []) = (mkECurve 1 n (set_z false c) [] [])) by reflexivity.
  rewrite Ex in Et. clear Ex.
  rewrite Et. clear Et.
  destruct (ilines_loop F _ (pending s5)) as [[ts r]| | |] eqn:Ef; try reflexivity.
  apply ilines_loop_suffix in Ef. cbn [rmap bind fst snd pending] in *.
  assert (Hn : Forall (fun l => starts_with l (lit "GOCAD PLine") = false) r).
  { eapply suffix_Forall; [|exact H9]. repeat (eapply suffix_trans; [eassumption|]). apply suffix_refl. }
  change (empty_mesh (F:=F) (C:=edge)) with (map_pts F (negz F) (empty_mesh (F:=F) (C:=edge))) at 1.
  rewrite build_curve_flip. rewrite bind_rmap, rmap_bind. apply bind_congr. intros m1.
  unfold read_ecurve. rewrite goto_if_none by assumption. reflexivity.
Qed.
Print Assumptions C07_pl_depth.

(** An object without coordinate system reads as one that states ZPOSITIVE Elevation. *)
Definition plain_lines (g hd : bytes) (hb : list bytes) (cl : bytes) (rest : list bytes) : list bytes :=
  g :: hd :: hb ++ cl :: rest.
Definition crs_lines (z : bytes) : list bytes :=
  [lit "GOCAD_ORIGINAL_COORDINATE_SYSTEM"; z; lit "END_ORIGINAL_COORDINATE_SYSTEM"].
Definition plain_ok (kw g hd : bytes) (hb : list bytes) (cl : bytes) (rest : list bytes) : Prop :=
  starts_with g kw = true /\
  starts_with hd (lit "HEADER") = true /\
  Forall (fun l => starts_with l (lit "}") = false) hb /\ starts_with cl (lit "}") = true /\
  (exists l r, rest = l :: r /\ starts_with l (lit "GOCAD_ORIGINAL_COORDINATE_SYSTEM") = false) /\
  Forall (fun l => ~ In LF l) (plain_lines g hd hb cl rest).

Lemma plain_front kw g hd hb cl rest : plain_ok kw g hd hb cl rest ->
  exists n, forall (A : Type) (k : option bytes -> CRS -> istream -> res A) nlb (c : bool),
  goto_if kw (mkStream (plain_lines g hd hb cl ((if c then crs_lines (zline true) else []) ++ rest)) nlb)
    = (Some g, mkStream (tl (plain_lines g hd hb cl ((if c then crs_lines (zline true) else []) ++ rest))) nlb) /\
  (do '(name, s2) <- read_header (mkStream
        (tl (plain_lines g hd hb cl ((if c then crs_lines (zline true) else []) ++ rest))) nlb);
   do '(crs, s3) <- read_CRS s2; k name crs s3)
  = k n default_crs (mkStream rest nlb).
Proof.
  intros [H1 [H2 [H3 [H4 [[l [r [-> H5]]] H6]]]]].
  destruct (read_header_block hd hb cl H2 H3 H4) as [n Hn]. exists n. intros A k nlb c.
  unfold plain_lines. cbn [tl]. split; [now apply goto_if_next|].
  rewrite Hn. cbn [bind]. destruct c; [reflexivity|].
  unfold read_CRS, next_if. cbn [app pending]. rewrite H5. reflexivity.
Qed.
Lemma plain_is_lines kw g hd hb cl rest (c : bool) : plain_ok kw g hd hb cl rest ->
  Forall is_line (plain_lines g hd hb cl ((if c then crs_lines (zline true) else []) ++ rest)).
Proof.
  intros [_ [_ [_ [_ [_ H]]]]]. unfold plain_lines in *.
  inversion H as [|? ? H1 H2]; subst. inversion H2 as [|? ? H3 H4]; subst.
  apply Forall_app in H4 as [H5 H6]. inversion H6 as [|? ? H7 H8]; subst.
  repeat (apply Forall_cons; [assumption|]). apply Forall_app; split; [assumption|].
  apply Forall_cons; [assumption|]. apply Forall_app; split; [|assumption].
  destruct c; [|constructor]. unfold crs_lines.
  apply Forall_cons; [apply lineb_ok; reflexivity|]. apply Forall_cons; [apply zline_line|].
  apply Forall_cons; [apply lineb_ok; reflexivity|]. constructor.
Qed.
Theorem C07_ts_no_crs :
  forall (F : Num) g hd hb cl rest, plain_ok (lit "GOCAD TSurf") g hd hb cl rest ->
    read_ts F (unlines (plain_lines g hd hb cl rest))
    = read_ts F (unlines (plain_lines g hd hb cl (crs_lines (lit "ZPOSITIVE Elevation") ++ rest))).
Proof.
  intros F g hd hb cl rest H.
  pose proof (plain_is_lines _ _ _ _ _ _ false H) as L1. pose proof (plain_is_lines _ _ _ _ _ _ true H) as L2.
  cbn [app] in L1. change (lit "ZPOSITIVE Elevation") with (zline true).
  unfold read_ts. rewrite !open_unlines by assumption. cbn [pending].
  rewrite (read_ts_loop_fuel F _ (S (S (List.length (plain_lines g hd hb cl (crs_lines (zline true) ++ rest))))))
    by (cbn [pending]; try lia; unfold plain_lines; cbn [List.length]; rewrite !app_length; cbn [List.length];
        rewrite ?app_length; lia).
  rewrite (read_ts_loop_fuel F (S (List.length _)) (S (S (List.length (plain_lines g hd hb cl (crs_lines (zline true) ++ rest))))))
    by (cbn [pending]; lia).
  set (f := S (List.length _)). cbn [read_ts_loop]. unfold read_tsurf.
  destruct (plain_front _ _ _ _ _ _ H) as [n Hk].
  set (k := fun name crs s3 => do '(props, s4) <- read_prop_header F [] s3;
      let ts0 := mkTSurf 1 name crs props [] [] [0] [0] [] []
                         (map (fun _ => []) (p_names props)) in
      do '(ts, s5) <- read_tfaces F ts0 s4;
      Ok (Some ts, s5)).
  destruct (Hk _ k true false) as [E1 E2].
  destruct (Hk _ k true true) as [E3 E4]. subst k. cbn [app] in E1, E2.
  rewrite E1, E3. cbv beta iota zeta in E2, E4 |- *. rewrite E2, E4. reflexivity.
Qed.
Print Assumptions C07_ts_no_crs.
Theorem C07_vs_no_crs :
  forall (F : Num) g hd hb cl rest, plain_ok (lit "GOCAD VSet") g hd hb cl rest ->
    read_vs F (unlines (plain_lines g hd hb cl rest))
    = read_vs F (unlines (plain_lines g hd hb cl (crs_lines (lit "ZPOSITIVE Elevation") ++ rest))).
Proof.
  intros F g hd hb cl rest H.
  pose proof (plain_is_lines _ _ _ _ _ _ false H) as L1. pose proof (plain_is_lines _ _ _ _ _ _ true H) as L2.
  cbn [app] in L1. change (lit "ZPOSITIVE Elevation") with (zline true).
  unfold read_vs. rewrite !open_unlines by assumption. cbn [pending].
  rewrite (read_vs_loop_fuel F _ (S (S (List.length (plain_lines g hd hb cl (crs_lines (zline true) ++ rest))))))
    by (cbn [pending]; try lia; unfold plain_lines; cbn [List.length]; rewrite !app_length; cbn [List.length];
        rewrite ?app_length; lia).
  rewrite (read_vs_loop_fuel F (S (List.length _)) (S (S (List.length (plain_lines g hd hb cl (crs_lines (zline true) ++ rest))))))
    by (cbn [pending]; lia).
  set (f := S (List.length _)). cbn [read_vs_loop]. unfold read_vs_points.
  destruct (plain_front _ _ _ _ _ _ H) as [n Hk].
  set (k := fun name crs s3 => do '(props, s4) <- read_prop_header F [] s3;
      let vs0 := mkVSet 1 name crs props [] (map (fun _ => []) (p_names props)) in
      do '(vs, s5) <- read_VSet_vertices F vs0 s4;
      Ok (Some vs, s5)).
  destruct (Hk _ k true false) as [E1 E2].
  destruct (Hk _ k true true) as [E3 E4]. subst k. cbn [app] in E1, E2.
  rewrite E1, E3. cbv beta iota zeta in E2, E4 |- *. rewrite E2, E4. reflexivity.
Qed.
Print Assumptions C07_vs_no_crs.
Theorem C07_pl_no_crs :
  forall (F : Num) g hd hb cl rest, plain_ok (lit "GOCAD PLine") g hd hb cl rest ->
    read_pl F (unlines (plain_lines g hd hb cl rest))
    = read_pl F (unlines (plain_lines g hd hb cl (crs_lines (lit "ZPOSITIVE Elevation") ++ rest))).
Proof.
  intros F g hd hb cl rest H.
  pose proof (plain_is_lines _ _ _ _ _ _ false H) as L1. pose proof (plain_is_lines _ _ _ _ _ _ true H) as L2.
  cbn [app] in L1. change (lit "ZPOSITIVE Elevation") with (zline true).
  unfold read_pl. rewrite !open_unlines by assumption. cbn [pending].
  rewrite (read_pl_loop_fuel F _ (S (S (List.length (plain_lines g hd hb cl (crs_lines (zline true) ++ rest))))))
    by (cbn [pending]; try lia; unfold plain_lines; cbn [List.length]; rewrite !app_length; cbn [List.length];
        rewrite ?app_length; lia).
  rewrite (read_pl_loop_fuel F (S (List.length _)) (S (S (List.length (plain_lines g hd hb cl (crs_lines (zline true) ++ rest))))))
    by (cbn [pending]; lia).
  set (f := S (List.length _)). cbn [read_pl_loop]. unfold read_ecurve.
  destruct (plain_front _ _ _ _ _ _ H) as [n Hk].
  set (k := fun name crs s3 =>
      do '(ec, s4) <- read_ilines F (mkECurve 1 name crs [] []) s3;
      Ok (Some ec, s4)).
  destruct (Hk _ k true false) as [E1 E2].
  destruct (Hk _ k true true) as [E3 E4]. subst k. cbn [app] in E1, E2.
  rewrite E1, E3. cbv beta iota zeta in E2, E4 |- *. rewrite E2, E4. reflexivity.
Qed.
Print Assumptions C07_pl_no_crs.

(** A surface with a ZPOSITIVE line in a coordinate system full of other lines. *)
Definition ex_c1 : list bytes := [lit "NAME ""Local frame"""; lit "PROJECTION Unknown"; lit "DATUM Unknown";
  lit "AXIS_NAME X Y Z"; lit "AXIS_UNIT m m m"].
Definition ex_rest : list bytes := [lit "TFACE"; lit "VRTX 1 0 0 5"; lit "VRTX 2 1 0 -6"; lit "VRTX 3 0 1 7";
  lit "ATOM 4 2"; lit "TRGL 1 2 3"; lit "TRGL 2 3 4"; lit "END"].
Lemma ex_object_ok : object_ok (lit "GOCAD TSurf") (lit "GOCAD TSurf 1") (lit "HEADER {") [lit "name:deep"]
  (lit "}") (lit "GOCAD_ORIGINAL_COORDINATE_SYSTEM") ex_c1 [lit "DATUM local"]
  (lit "END_ORIGINAL_COORDINATE_SYSTEM") ex_rest.
Proof.
  repeat split; repeat (apply Forall_cons || apply Forall_nil); try reflexivity;
    try (apply lineb_ok; reflexivity).
  intros t r H. vm_compute in H. injection H as <- <-. discriminate.
Qed.
Definition ex_depth (z : bytes) : bytes := unlines (object_lines (lit "GOCAD TSurf 1") (lit "HEADER {") [lit "name:deep"]
  (lit "}") (lit "GOCAD_ORIGINAL_COORDINATE_SYSTEM") ex_c1 z [lit "DATUM local"]
  (lit "END_ORIGINAL_COORDINATE_SYSTEM") ex_rest).
Example ex_elevation : mesh_is zzz_eqb (read_ts ExNum (ex_depth (lit "ZPOSITIVE Elevation")))
  (Some (lit "deep")) [(0,0,5); (1,0,-6); (0,1,7); (1,0,-6)] [(0,1,2); (1,2,3)] [] = true.
Proof. vm_compute. reflexivity. Qed.
Example ex_depth_down : mesh_is zzz_eqb (read_ts ExNum (ex_depth (lit "ZPOSITIVE Depth")))
  (Some (lit "deep")) [(0,0,-5); (1,0,6); (0,1,-7); (1,0,6)] [(0,1,2); (1,2,3)] [] = true.
Proof. vm_compute. reflexivity. Qed.
