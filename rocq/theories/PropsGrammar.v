(** * C102, C103, C104: GOCAD files, whoever wrote them, are loaded as the objects they describe. *)
From Coq Require Import ZArith List Lia Bool Ascii String.
From Verif Require Import Base Text TextFacts Spec GocadModel GocadFacts MeshModel TsModel TsFacts MultiMore LsoFacts ExNum ExCheck Grammar GrammarFacts.
Import ListNotations.
Local Open Scope string_scope.
Local Open Scope list_scope.
Local Open Scope Z_scope.

(** The mesh has the declared properties and no other, with on each vertex the values of its line. *)
Definition has_values {F C} (ps : list (property F)) (vs : list (vertex F)) (m : mesh F C) : Prop :=
  (forall n, In n (map fst (m_attrs m)) <-> exists p, In p ps /\ pr_name p = n) /\
  forall j p i v, nth_error ps j = Some p -> nthz vs i = Some v ->
    exists vals, nth_error (vx_values v) j = Some vals /\ attr_value m (pr_name p) (Z.to_nat i) = Some vals.
Definition distinct_names {F} (ps : list (property F)) : Prop := NoDup (map pr_name ps) /\ Forall (fun p => pr_name p <> lit "points") ps.
(** The cell [c] joins the vertices numbered [t]. *)
Definition joins {F} (vs : list (vertex F)) (t c : Z * Z * Z) : Prop :=
  numbered vs (fst (fst t)) (fst (fst c)) /\ numbered vs (snd (fst t)) (snd (fst c)) /\ numbered vs (snd t) (snd c).
Definition joins2 {F} (vs : list (vertex F)) (t c : Z * Z) : Prop := numbered vs (fst t) (fst c) /\ numbered vs (snd t) (snd c).

Lemma declared_in_base {F} (vs : list (vertex F)) n : good_numbers vs -> declared vs n -> numbered vs n (sub32 n (base vs)) /\ 0 <= sub32 n (base vs) < lenz vs.
Proof.
  intros G [v [Hv <-]]. apply in_nthz in Hv as [i Hi]. rewrite (good_position vs i v G Hi). split; [now exists v|]. now apply nthz_range in Hi.
Qed.
Lemma declared_triangles {F} (vs : list (vertex F)) ts : good_numbers vs ->
  Forall (fun t => declared vs (fst (fst t)) /\ declared vs (snd (fst t)) /\ declared vs (snd t)) ts ->
  Forall2 (joins vs) ts (map (in_base (base vs)) ts) /\ Forall (tri_in (lenz vs)) (map (in_base (base vs)) ts).
Proof.
  intros G. induction 1 as [|[[a b] c] ts H1 H2 [IH1 IH2]]; cbn [map in_base fst snd] in *; [split; constructor|].
  destruct H1 as [A [B C]]. apply (declared_in_base vs a G) in A. apply (declared_in_base vs b G) in B. apply (declared_in_base vs c G) in C.
  split; constructor; auto; [split; [|split]; cbn [fst snd]; tauto|]. unfold tri_in. tauto.
Qed.

(** ** C102 *)
Theorem C102_surface :
  forall (F : Num) ls name up (ps : list (property F)) between tface data last rest vs ts,
    Forall is_line ls ->
    object_with_properties F "GOCAD TSurf" ls name up ps (between ++ tface :: data ++ last :: rest) ->
    Forall (starts_not "TFACE") between -> starts "TFACE" tface ->
    surface_data F up ps data vs ts -> end_line last -> Forall (starts_not "GOCAD TSurf") rest ->
    Forall (fun t => declared vs (fst (fst t)) /\ declared vs (snd (fst t)) /\ declared vs (snd t)) ts ->
    small_sizes ps -> distinct_names ps ->
    exists m, read_ts F (unlines ls) = Ok m /\ m_name m = name /\ m_points m = map vx_point vs /\
      Forall2 (joins vs) ts (m_cells m) /\ has_values ps vs m.
Proof.
  intros F ls name up ps between tface data last rest vs ts Hls [block [Ho [Hp Hnp]]] Hb Ht Hd Hl Hr Hts Hs [Hnd Hpt].
  set (body := between ++ tface :: data ++ last :: rest) in *.
  assert (Hbody : body <> []) by (unfold body; now destruct between).
  unfold read_ts. rewrite open_unlines by assumption. cbn [pending].
  destruct (object_head _ _ _ _ _ true Ho) as (crs & first & r & Hz & E1 & r' & E2 & E3); [destruct block; [assumption|discriminate]|].
  destruct (properties_read F block ps body true Hp Hnp Hbody) as (h & E4 & Hh).
  set (st0 := mkTSurf 1 name crs h [] [] [0] [0] [] [] (map (fun _ => []) (p_names h)) : TSurf F).
  assert (Lh : List.length (p_names h) = List.length ps) by (destruct Hh as [-> _]; apply map_length).
  assert (S0 : surface_state name crs h [] [] st0).
  { constructor; try reflexivity. cbn. rewrite (columns_nil ps) by assumption. now rewrite Lh. }
  destruct (surface_loop F up ps name crs h Hz Hh Hs st0 S0 data vs ts Hd) as (_ & G & st & St & L).
  destruct (tface_end F name crs h vs ts st last St Hl) as (st' & E5 & [S1 S2 S3 S4 S5 S6 S7]).
  assert (E : read_tsurf F (mkStream ls true) = Ok (Some st', mkStream rest true)).
  { unfold read_tsurf. rewrite E1. rewrite E2. cbn [bind]. rewrite E3. cbn [bind]. rewrite E4. cbn [bind]. cbv zeta. fold st0.
    unfold read_tfaces. unfold body. rewrite goto_keyword_first by assumption. cbn [bind pending nl]. rewrite L. cbn [tfaces_loop]. rewrite E5. reflexivity. }
  assert (Hlen : exists k, List.length ls = S k).
  { destruct Ho as (pre & fst_ & hs & cs & -> & _). rewrite app_length. cbn [List.length]. exists (List.length pre + List.length (hs ++ cs ++ block ++ body))%nat. lia. }
  destruct Hlen as [k Hk]. rewrite Hk. cbn [read_ts_loop]. rewrite E. cbn [bind].
  destruct (declared_triangles vs ts G Hts) as [J V].
  unfold build_surface. rewrite S1, S3, S5, S6, S7. change (nb_vertices empty_mesh =? 0) with true. cbv iota.
  rewrite (set_name_empty F), (create_points_spec F). cbn [m_name m_points m_cells m_attrs app map].
  rewrite create_triangles by (unfold nb_vertices, lenz in *; cbn [m_points]; now rewrite map_length).
  cbn [bind m_name m_points m_cells m_attrs app]. unfold create_attributes. destruct Hh as (Hn & He & Hv). rewrite Hn, He, Hv, !map_length.
  destruct (surface_values F up ps data vs ts Hd) as [Hva Hvl].
  unfold columns. rewrite (create_columns vs ps Hs 0 _ []); auto; [|cbn [m_points]; apply map_length].
  cbn [bind read_ts_loop]. unfold read_tsurf, goto_if. cbn [pending nl]. rewrite scan_none by assumption. cbn [bind].
  eexists. split; [reflexivity|]. cbn [m_name m_points m_cells set_attr_list]. split; [reflexivity|]. split; [reflexivity|]. split; [exact J|].
  now apply attrs_from_value.
Qed.
Print Assumptions C102_surface.

(** ** C103 *)
Lemma declared_segments {F} (vs : list (vertex F)) es : good_numbers vs ->
  Forall (fun e => declared vs (fst e) /\ declared vs (snd e)) es ->
  let cells := map (fun e => (sub32 (fst e) (base vs), sub32 (snd e) (base vs))) es in
  Forall2 (joins2 vs) es cells /\ Forall (edge_in (lenz vs)) cells.
Proof.
  intros G. induction 1 as [|[a b] es H1 H2 [IH1 IH2]]; cbn [map fst snd] in *; [split; constructor|].
  destruct H1 as [A B]. apply (declared_in_base vs a G) in A. apply (declared_in_base vs b G) in B.
  split; constructor; auto; split; cbn [fst snd]; tauto.
Qed.
(** The data of the curve end with END or with the file. *)
Definition curve_end (tail : list bytes) : Prop :=
  tail = [] \/ exists last rest, tail = last :: rest /\ end_line last /\ Forall (starts_not "GOCAD PLine") rest.
Theorem C103_curve :
  forall (F : Num) ls name up between iline data tail vs es,
    Forall is_line ls ->
    object_text "GOCAD PLine" ls name up (between ++ iline :: data ++ tail) ->
    Forall (starts_not "ILINE") between -> starts "ILINE" iline ->
    curve_data F up data vs es -> curve_end tail ->
    Forall (fun e => declared vs (fst e) /\ declared vs (snd e)) es ->
    exists m, read_pl F (unlines ls) = Ok m /\ m_name m = name /\ m_points m = map vx_point vs /\
      Forall2 (joins2 vs) es (m_cells m).
Proof.
  intros F ls name up between iline data tail vs es Hls Ho Hb Ht Hd Hl Hes.
  set (body := between ++ iline :: data ++ tail) in *.
  assert (Hbody : body <> []) by (unfold body; now destruct between).
  unfold read_pl. rewrite open_unlines by assumption. cbn [pending].
  destruct (object_head _ _ _ _ _ true Ho Hbody) as (crs & first & r & Hz & E1 & r' & E2 & E3).
  set (st0 := mkECurve 1 name crs [] [] : ECurve F).
  assert (S0 : curve_state name crs [] [] st0) by now constructor.
  destruct (curve_loop F up name crs Hz st0 S0 data vs es Hd) as (_ & G & st & [S1 S2 S4 S5 S6] & L).
  assert (E : exists rest, Forall (starts_not "GOCAD PLine") rest /\ read_ecurve F (mkStream ls true) = Ok (Some st, mkStream rest true)).
  { destruct Hl as [->|(last & rest & -> & Hl & Hr)]; [exists []; split; [constructor|]|exists rest; split; [assumption|]].
    - unfold read_ecurve. rewrite E1. rewrite E2. cbn [bind]. rewrite E3. cbn [bind]. fold st0.
      unfold read_ilines. unfold body. rewrite goto_keyword_first by assumption. cbn [bind pending nl]. rewrite L. reflexivity.
    - unfold read_ecurve. rewrite E1. rewrite E2. cbn [bind]. rewrite E3. cbn [bind]. fold st0.
      unfold read_ilines. unfold body. rewrite goto_keyword_first by assumption. cbn [bind pending nl]. rewrite L. cbn [ilines_loop].
      rewrite iline_end by assumption. reflexivity. }
  destruct E as (rest & Hr & E).
  assert (Hlen : exists k, List.length ls = S k).
  { destruct Ho as (pre & fst_ & hs & cs & -> & _). rewrite app_length. cbn [List.length]. exists (List.length pre + List.length (hs ++ cs ++ body))%nat. lia. }
  destruct Hlen as [k Hk]. rewrite Hk. cbn [read_pl_loop]. rewrite E. cbn [bind].
  destruct (declared_segments vs es G Hes) as [J V]. cbv zeta in J, V.
  unfold build_curve. rewrite S1, S5, S6. rewrite (set_name_empty F), (create_points_spec F). cbn [m_name m_points m_cells m_attrs app map].
  change (nb_vertices empty_mesh) with 0. rewrite map_map. cbn [fst snd].
  set (cells := map (fun e => (sub32 (fst e) (base vs), sub32 (snd e) (base vs))) es) in *.
  assert (EC : map (fun x : Z * Z => (add32 (sub32 (fst x) (base vs)) 0, add32 (sub32 (snd x) (base vs)) 0)) es = cells).
  { unfold cells. apply map_ext. intros e. unfold add32, sub32, wrap32. now rewrite !Z.add_0_r, !Z.mod_mod. }
  rewrite EC.
  destruct (create_edges_ok F cells (mkMesh name (map vx_point vs) [] [])) as [m1 Em].
  { unfold nb_vertices. cbn [m_points]. unfold lenz in *. now rewrite map_length. }
  rewrite Em. cbn [bind]. apply create_edges_fields in Em as (M1 & M2 & M3 & M4 & _). cbn [m_name m_points m_cells m_attrs app] in M1, M2, M3, M4.
  destruct k as [|k]; cbn [read_pl_loop].
  { exfalso. clear -Hk Ho. destruct Ho as (pre & fst_ & hs & cs & -> & _ & _ & (a & b & c & -> & _) & _).
    rewrite app_length in Hk. cbn [List.length app] in Hk. rewrite !app_length in Hk. cbn [List.length] in Hk. lia. }
  unfold read_ecurve, goto_if. cbn [pending nl]. rewrite scan_none by assumption. cbn [bind].
  exists m1. split; [reflexivity|]. split; [assumption|]. split; [assumption|]. now rewrite M3.
Qed.
Print Assumptions C103_curve.

(** ** C104 *)
Theorem C104_point_set :
  forall (F : Num) ls name up (ps : list (property F)) between data last rest vs,
    Forall is_line ls ->
    object_with_properties F "GOCAD VSet" ls name up ps (between ++ data ++ last :: rest) ->
    Forall (fun l => starts_not "VRTX" l /\ starts_not "PVRTX" l) between ->
    (exists first others, data = first :: others /\ (starts "VRTX" first \/ starts "PVRTX" first)) ->
    points_data F up ps data vs -> end_line last -> Forall (starts_not "GOCAD VSet") rest ->
    small_sizes ps -> distinct_names ps ->
    exists m, read_vs F (unlines ls) = Ok m /\ m_name m = name /\ m_points m = map vx_point vs /\ has_values ps vs m.
Proof.
  intros F ls name up ps between data last rest vs Hls [block [Ho [Hp Hnp]]] Hb (first0 & others & Ed & Hf) Hd Hl Hr Hs [Hnd Hpt].
  set (body := between ++ data ++ last :: rest) in *.
  assert (Hbody : body <> []) by (unfold body; rewrite Ed; now destruct between).
  unfold read_vs. rewrite open_unlines by assumption. cbn [pending].
  destruct (object_head _ _ _ _ _ true Ho) as (crs & first & r & Hz & E1 & r' & E2 & E3); [destruct block; [assumption|discriminate]|].
  destruct (properties_read F block ps body true Hp Hnp Hbody) as (h & E4 & Hh).
  set (st0 := mkVSet 1 name crs h [] (map (fun _ => []) (p_names h)) : VSet F).
  assert (Lh : List.length (p_names h) = List.length ps) by (destruct Hh as [-> _]; apply map_length).
  assert (S0 : points_state name crs h [] st0).
  { constructor; try reflexivity. cbn. rewrite (columns_nil ps) by assumption. now rewrite Lh. }
  destruct (points_loop F up ps name crs h Hz Hh Hs st0 S0 data vs Hd) as (st & [S1 S2 S3 S5 S7] & L).
  assert (E : read_vs_points F (mkStream ls true) = Ok (Some st, mkStream rest true)).
  { unfold read_vs_points. rewrite E1. rewrite E2. cbn [bind]. rewrite E3. cbn [bind]. rewrite E4. cbn [bind]. cbv zeta. fold st0.
    unfold read_VSet_vertices. unfold body. rewrite Ed. cbn [app]. rewrite goto_keywords_hit.
    - cbn [bind pending nl]. change (first0 :: others ++ last :: rest) with ((first0 :: others) ++ last :: rest). rewrite <- Ed, L.
      cbn [vset_loop]. rewrite vset_end by assumption. reflexivity.
    - eapply Forall_impl; [|exact Hb]. cbn. intros l [H1 H2]. rewrite H1, H2. reflexivity.
    - cbn [existsb]. destruct Hf as [-> | ->]; [reflexivity|]. now rewrite orb_true_r. }
  assert (Hlen : exists k, List.length ls = S (S k)).
  { destruct Ho as (pre & fst_ & hs & cs & -> & _ & _ & (a & b & c & -> & _) & _). rewrite app_length. cbn [List.length app]. rewrite !app_length. cbn [List.length].
    eexists (List.length pre + _)%nat. rewrite Nat.add_succ_r. f_equal. rewrite Nat.add_succ_r. reflexivity. }
  destruct Hlen as [k Hk]. rewrite Hk. cbn [read_vs_loop]. rewrite E. cbn [bind].
  unfold build_point_set. rewrite S1, S3, S5, S7.
  rewrite (set_name_empty F), (create_points_spec F). cbn [m_name m_points m_cells m_attrs app map].
  unfold create_attributes. destruct Hh as (Hn & He & Hv). rewrite Hn, He, Hv, !map_length.
  destruct (points_values F up ps data vs Hd) as [Hva Hvl].
  unfold columns. rewrite (create_columns vs ps Hs 0 _ []); auto; [|cbn [m_points]; apply map_length].
  cbn [bind read_vs_loop]. unfold read_vs_points, goto_if. cbn [pending nl]. rewrite scan_none by assumption. cbn [bind].
  eexists. split; [reflexivity|]. cbn [m_name m_points m_cells set_attr_list]. split; [reflexivity|]. split; [reflexivity|].
  now apply attrs_from_value.
Qed.
Print Assumptions C104_point_set.

(** ** Cases *)
Definition ex_head : list bytes :=
  [lit "# exported by another program"; lit "GOCAD TSurf 1"; lit "HEADER {"; lit "*visible: true"; lit "name: top of  reservoir"; lit "}";
   lit "GOCAD_ORIGINAL_COORDINATE_SYSTEM"; lit "AXIS_NAME X Y Z"; lit "ZPOSITIVE Depth"; lit "END_ORIGINAL_COORDINATE_SYSTEM"].
Definition ex_props : list bytes :=
  [lit "PROPERTIES porosity slope"; lit "PROP_LEGAL_RANGES **none** **none** LINEARFUNCTION 0 1 1 2 3"; lit "NO_DATA_VALUES -1 -2";
   lit "PROPERTY_CLASSES a b"; lit "PROPERTY_KINDS r r"; lit "# comment"; lit "PROPERTY_SUBCLASSES QUANTITY Float QUANTITY Float"; lit "ESIZES 1 2"; lit "UNITS n n"].
Definition ex_data : list bytes :=
  [lit "PVRTX 10 1 2 3 7 8 9"; lit "PVRTX 11 4 5 6 1 2 3"; lit "TFACE"; lit "PATOM 12 10 4 5 6"; lit "PVRTX 13 0 0 1 0 0 0 extra"; lit "TRGL 13 12 11";
   lit "TRGL 10 11 13"; lit "BSTONE 10"; lit "BORDER 14 10 11"; lit "comment"].
Definition ex_file : list bytes :=
  ex_head ++ ex_props ++ [lit "PROPERTY_CLASS_HEADER Z {"; lit "}"] ++ lit "TFACE" :: ex_data ++ lit "END" :: [lit "GOCAD VSet 1"].
Definition ex_ps : list (property ExNum) := [mkProperty (lit "porosity") 1 (-1 : num ExNum); mkProperty (lit "slope") 2 (-2 : num ExNum)].
Definition ex_vs : list (vertex ExNum) :=
  [mkVertex (F := ExNum) 10 (1, 2, -3) [[7]; [8; 9]]; mkVertex (F := ExNum) 11 (4, 5, -6) [[1]; [2; 3]];
   mkVertex (F := ExNum) 12 (1, 2, -3) [[4]; [5; 6]]; mkVertex (F := ExNum) 13 (0, 0, -1) [[0]; [0; 0]]].

Ltac texts := repeat (constructor; [reflexivity|]); constructor.
Example C102_example_data : surface_data ExNum false ex_ps ex_data ex_vs [(13, 12, 11); (10, 11, 13)].
Proof.
  pose proof (sd_nil ExNum false ex_ps) as D.
  assert (V : forall l v n p vals k tn tx ty tz t1 t2 t3 more x y z a b c, v = mkVertex (F := ExNum) n p vals ->
    string_split l = k :: tn :: tx :: ty :: tz :: [t1; t2; t3] ++ more -> In k [lit "VRTX"; lit "PVRTX"] -> number tn n ->
    real ExNum tx x -> real ExNum ty y -> real ExNum tz z -> p = (x, y, - z) -> vals = [[a]; [b; c]] ->
    real ExNum t1 a -> real ExNum t2 b -> real ExNum t3 c -> vertex_line ExNum false ex_ps l v).
  { intros l v n p vals k tn tx ty tz t1 t2 t3 more x y z a b c -> E Hk N X Y Zz -> -> A B C.
    exists k, tn, tx, ty, tz, ([t1; t2; t3] ++ more), x, y, z. do 7 (split; [assumption || reflexivity|]). split; [texts|].
    exists [t1; t2; t3], more. split; [reflexivity|]. cbn. repeat constructor; assumption. }
  eapply sd_vertex with (l := lit "PVRTX 10 1 2 3 7 8 9") (v := mkVertex (F := ExNum) 10 (1, 2, -3) [[7]; [8; 9]]) in D; [|
    eapply (V _ _ _ _ _ _ _ _ _ _ _ _ _ []); try reflexivity; cbn; tauto | reflexivity]. cbn [app] in D.
  eapply sd_vertex with (l := lit "PVRTX 11 4 5 6 1 2 3") (v := mkVertex (F := ExNum) 11 (4, 5, -6) [[1]; [2; 3]]) in D; [|
    eapply (V _ _ _ _ _ _ _ _ _ _ _ _ _ []); try reflexivity; cbn; tauto | reflexivity]. cbn [app] in D.
  eapply sd_section with (l := lit "TFACE") (more := []) in D; [|reflexivity]. cbn [app] in D.
  eapply sd_atom with (l := lit "PATOM 12 10 4 5 6") (o := 10) (w := mkVertex (F := ExNum) 10 (1, 2, -3) [[7]; [8; 9]])
    (v := mkVertex (F := ExNum) 12 (1, 2, -3) [[4]; [5; 6]]) in D; [|
    exists (lit "PATOM"), (lit "12"), (lit "10"), [lit "4"; lit "5"; lit "6"]; split; [reflexivity|]; split; [cbn; tauto|];
      split; [reflexivity|]; split; [reflexivity|]; split; [texts|]; exists [lit "4"; lit "5"; lit "6"], []; split; [reflexivity|]; repeat constructor
    | reflexivity | cbn; tauto | reflexivity | reflexivity]. cbn [app] in D.
  eapply sd_vertex with (l := lit "PVRTX 13 0 0 1 0 0 0 extra") (v := mkVertex (F := ExNum) 13 (0, 0, -1) [[0]; [0; 0]]) in D; [|
    eapply (V _ _ _ _ _ _ _ _ _ _ _ _ _ [lit "extra"]); try reflexivity; cbn; tauto | reflexivity]. cbn [app] in D.
  eapply sd_triangle with (l := lit "TRGL 13 12 11") (t := (13, 12, 11)) in D; [|
    exists (lit "13"), (lit "12"), (lit "11"), []; repeat split; reflexivity | discriminate]. cbn [app] in D.
  eapply sd_triangle with (l := lit "TRGL 10 11 13") (t := (10, 11, 13)) in D; [|
    exists (lit "10"), (lit "11"), (lit "13"), []; repeat split; reflexivity | discriminate]. cbn [app] in D.
  eapply sd_stone with (l := lit "BSTONE 10") in D; [|left; exists (lit "10"), [], 10; split; reflexivity]. cbn [app] in D.
  eapply sd_stone with (l := lit "BORDER 14 10 11") in D; [|right; exists (lit "14"), (lit "10"), (lit "11"), [], 10, 11; repeat split; reflexivity]. cbn [app] in D.
  eapply sd_other with (l := lit "comment") in D; [|exists (lit "comment"), []; split; [reflexivity|]; cbn; intuition discriminate]. cbn [app] in D.
  exact D.
Qed.

Example C102_example_object : object_with_properties ExNum "GOCAD TSurf" ex_file (Some (lit "top of reservoir")) false ex_ps
  ([lit "PROPERTY_CLASS_HEADER Z {"; lit "}"] ++ lit "TFACE" :: ex_data ++ lit "END" :: [lit "GOCAD VSet 1"]).
Proof.
  exists ex_props. split; [|split; [|discriminate]].
  - exists [lit "# exported by another program"], (lit "GOCAD TSurf 1"),
      [lit "HEADER {"; lit "*visible: true"; lit "name: top of  reservoir"; lit "}"],
      [lit "GOCAD_ORIGINAL_COORDINATE_SYSTEM"; lit "AXIS_NAME X Y Z"; lit "ZPOSITIVE Depth"; lit "END_ORIGINAL_COORDINATE_SYSTEM"].
    split; [reflexivity|]. split; [repeat constructor|]. split; [reflexivity|]. split; [|split; [|discriminate]].
    + exists (lit "HEADER {"), [lit "*visible: true"; lit "name: top of  reservoir"], (lit "}").
      split; [reflexivity|]. split; [reflexivity|]. split; [repeat constructor|]. split; [reflexivity|]. right.
      exists [lit "*visible: true"], (lit "name: top of  reservoir"), [], (lit " top of  reservoir"). repeat split; try reflexivity. constructor.
    + right. exists (lit "GOCAD_ORIGINAL_COORDINATE_SYSTEM"), [lit "AXIS_NAME X Y Z"; lit "ZPOSITIVE Depth"], (lit "END_ORIGINAL_COORDINATE_SYSTEM").
      split; [reflexivity|]. split; [reflexivity|]. split; [repeat constructor|]. split.
      { constructor; [|constructor; [|constructor]].
        - exists (lit "AXIS_NAME"), [lit "X"; lit "Y"; lit "Z"]. split; [reflexivity|discriminate].
        - exists (lit "ZPOSITIVE"), [lit "Depth"]. split; [reflexivity|discriminate]. }
      split; [|reflexivity]. right. exists [lit "AXIS_NAME X Y Z"], (lit "ZPOSITIVE Depth"), [], (lit "Depth"), [].
      split; [reflexivity|]. split; [reflexivity|]. split; [split; discriminate|constructor].
  - right. right. split; [discriminate|].
    exists (lit "PROPERTIES porosity slope"), (lit "PROPERTIES"), [lit "PROP_LEGAL_RANGES **none** **none** LINEARFUNCTION 0 1 1 2 3"],
      [lit "NO_DATA_VALUES -1 -2"], [lit "PROPERTY_CLASSES a b"], [lit "PROPERTY_KINDS r r"],
      [lit "# comment"; lit "PROPERTY_SUBCLASSES QUANTITY Float QUANTITY Float"], [lit "ESIZES 1 2"], [lit "UNITS n n"].
    split; [reflexivity|]. split; [reflexivity|]. split; [reflexivity|].
    assert (U : forall kw l, starts_with l kw = true -> up_to kw [l] l).
    { intros kw l H. exists []. split; [reflexivity|]. split; [constructor|exact H]. }
    split; [|split; [|split; [|split; [|split; [|split]]]]].
    + exists (lit "PROP_LEGAL_RANGES **none** **none** LINEARFUNCTION 0 1 1 2 3"). split; [apply U; reflexivity|vm_compute; exact I].
    + exists (lit "NO_DATA_VALUES -1 -2"), (lit "NO_DATA_VALUES"), [lit "-1"; lit "-2"], []. split; [apply U; reflexivity|]. split; [reflexivity|]. repeat constructor.
    + exists (lit "PROPERTY_CLASSES a b"), (lit "PROPERTY_CLASSES"), [lit "a"; lit "b"]. split; [apply U; reflexivity|]. split; [reflexivity|cbn; lia].
    + exists (lit "PROPERTY_KINDS r r"), (lit "PROPERTY_KINDS"), [lit "r"; lit "r"]. split; [apply U; reflexivity|]. split; [reflexivity|cbn; lia].
    + exists (lit "PROPERTY_SUBCLASSES QUANTITY Float QUANTITY Float"). split; [|vm_compute; exact I].
      exists [lit "# comment"]. split; [reflexivity|]. split; [repeat constructor|reflexivity].
    + exists (lit "ESIZES 1 2"), (lit "ESIZES"), [lit "1"; lit "2"], []. split; [apply U; reflexivity|]. split; [reflexivity|]. repeat constructor.
    + exists (lit "UNITS n n"), (lit "UNITS"), [lit "n"; lit "n"]. split; [apply U; reflexivity|]. split; [reflexivity|cbn; lia].
Qed.
Example C102_example : exists m, read_ts ExNum (unlines ex_file) = Ok m /\ m_name m = Some (lit "top of reservoir") /\
  m_points m = [(1, 2, -3); (4, 5, -6); (1, 2, -3); (0, 0, -1)] /\ Forall2 (joins ex_vs) [(13, 12, 11); (10, 11, 13)] (m_cells m) /\ has_values ex_ps ex_vs m.
Proof.
  apply (C102_surface ExNum ex_file (Some (lit "top of reservoir")) false ex_ps [lit "PROPERTY_CLASS_HEADER Z {"; lit "}"] (lit "TFACE") ex_data (lit "END")
    [lit "GOCAD VSet 1"] ex_vs [(13, 12, 11); (10, 11, 13)]).
  - apply Forall_forall. intros l Hl. apply lineb_ok. revert l Hl. apply forallb_forall. reflexivity.
  - exact C102_example_object.
  - repeat constructor.
  - reflexivity.
  - exact C102_example_data.
  - now exists [].
  - repeat constructor.
  - assert (D : forall n v, In v ex_vs -> vx_number v = n -> declared ex_vs n) by (intros n v H1 H2; now exists v).
    repeat constructor; cbn [fst snd];
      first [now apply (D _ (mkVertex (F := ExNum) 10 (1, 2, -3) [[7]; [8; 9]])); [cbn; tauto|]
            |now apply (D _ (mkVertex (F := ExNum) 11 (4, 5, -6) [[1]; [2; 3]])); [cbn; tauto|]
            |now apply (D _ (mkVertex (F := ExNum) 12 (1, 2, -3) [[4]; [5; 6]])); [cbn; tauto|]
            |now apply (D _ (mkVertex (F := ExNum) 13 (0, 0, -1) [[0]; [0; 0]])); [cbn; tauto|]].
  - repeat constructor; cbn; lia.
  - split; [|repeat constructor; discriminate]. repeat constructor; cbn; intuition discriminate.
Qed.
Example C102_example_cells : mesh_is zzz_eqb (read_ts ExNum (unlines ex_file)) (Some (lit "top of reservoir"))
  [(1, 2, -3); (4, 5, -6); (1, 2, -3); (0, 0, -1)] [(3, 2, 1); (0, 1, 3)]
  [(lit "porosity", [[7]; [1]; [4]; [0]]); (lit "slope", [[8; 9]; [2; 3]; [5; 6]; [0; 0]])] = true.
Proof. vm_compute. reflexivity. Qed.

(** Vertex numbers that do not follow each other are not taken into account: a triangle then joins other vertices, or vertices
    outside the mesh. *)
Definition ts_of (data : list bytes) : list bytes := [lit "GOCAD TSurf 1"; lit "HEADER {"; lit "}"; lit "TFACE"] ++ data ++ [lit "END"].
Definition plain_vertex (n : Z) (p : point ExNum) : vertex ExNum := mkVertex (F := ExNum) n p [].
Lemma plain_vertex_line l k tn tx ty tz n x y z : string_split l = [k; tn; tx; ty; tz] -> In k [lit "VRTX"; lit "PVRTX"] -> number tn n ->
  real ExNum tx x -> real ExNum ty y -> real ExNum tz z -> vertex_line ExNum true [] l (plain_vertex n (x, y, z)).
Proof.
  intros E Hk N X Y Z0. exists k, tn, tx, ty, tz, [], x, y, z. do 7 (split; [assumption || reflexivity|]). split; [constructor|]. exists [], []. split; [reflexivity|constructor].
Qed.
Theorem C102_numbers_refuted :
  exists l1 l2 l3 lt v1 v2 v3 t (m : mesh ExNum tri),
    vertex_line ExNum true [] l1 v1 /\ vertex_line ExNum true [] l2 v2 /\ vertex_line ExNum true [] l3 v3 /\ trgl_words lt t /\
    Forall (fun n => declared [v1; v2; v3] n) [fst (fst t); snd (fst t); snd t] /\
    read_ts ExNum (unlines (ts_of [l1; l2; l3; lt])) = Ok m /\ m_points m = map vx_point [v1; v2; v3] /\
    ~ Forall2 (joins [v1; v2; v3]) [t] (m_cells m).
Proof.
  assert (C : mesh_is zzz_eqb (read_ts ExNum (unlines (ts_of [lit "VRTX 1 0 0 0"; lit "VRTX 3 1 1 1"; lit "VRTX 2 2 2 2"; lit "TRGL 1 2 3"]))) None
    [(0, 0, 0); (1, 1, 1); (2, 2, 2)] [(0, 1, 2)] [] = true) by (vm_compute; reflexivity).
  destruct (mesh_is_ok _ _ _ _ _ _ zzz_eqb_ok C) as (m & R & _ & P & Cs & _).
  exists (lit "VRTX 1 0 0 0"), (lit "VRTX 3 1 1 1"), (lit "VRTX 2 2 2 2"), (lit "TRGL 1 2 3"),
    (plain_vertex 1 (0, 0, 0)), (plain_vertex 3 (1, 1, 1)), (plain_vertex 2 (2, 2, 2)), (1, 2, 3), m.
  split; [eapply plain_vertex_line; try reflexivity; cbn; tauto|]. split; [eapply plain_vertex_line; try reflexivity; cbn; tauto|].
  split; [eapply plain_vertex_line; try reflexivity; cbn; tauto|].
  split; [exists (lit "1"), (lit "2"), (lit "3"), []; repeat split; reflexivity|].
  split.
  { constructor; [|constructor; [|constructor; [|constructor]]]; unfold declared.
    - exists (plain_vertex 1 (0, 0, 0)). cbn. auto.
    - exists (plain_vertex 2 (2, 2, 2)). cbn. auto.
    - exists (plain_vertex 3 (1, 1, 1)). cbn. auto. }
  split; [exact R|]. split; [exact P|]. refine (eq_ind_r (fun c => ~ Forall2 (joins _) _ c) _ Cs). intros H. inversion H as [|? ? ? ? [_ [[v [H1 H2]] _]] _]; subst.
  cbn in H1. injection H1 as <-. discriminate.
Qed.
Print Assumptions C102_numbers_refuted.
Theorem C102_gap_refuted :
  exists l1 l2 l3 lt v1 v2 v3 t,
    vertex_line ExNum true [] l1 v1 /\ vertex_line ExNum true [] l2 v2 /\ vertex_line ExNum true [] l3 v3 /\ trgl_words lt t /\
    vx_number v1 < vx_number v2 < vx_number v3 /\
    Forall (fun n => declared [v1; v2; v3] n) [fst (fst t); snd (fst t); snd t] /\
    read_ts ExNum (unlines (ts_of [l1; l2; l3; lt])) = UB.
Proof.
  exists (lit "VRTX 1 0 0 0"), (lit "VRTX 2 1 1 1"), (lit "VRTX 4 2 2 2"), (lit "TRGL 1 2 4"),
    (plain_vertex 1 (0, 0, 0)), (plain_vertex 2 (1, 1, 1)), (plain_vertex 4 (2, 2, 2)), (1, 2, 4).
  split; [eapply plain_vertex_line; try reflexivity; cbn; tauto|]. split; [eapply plain_vertex_line; try reflexivity; cbn; tauto|].
  split; [eapply plain_vertex_line; try reflexivity; cbn; tauto|].
  split; [exists (lit "1"), (lit "2"), (lit "4"), []; repeat split; reflexivity|].
  split; [cbn; lia|]. split.
  { constructor; [|constructor; [|constructor; [|constructor]]]; unfold declared.
    - exists (plain_vertex 1 (0, 0, 0)). cbn. auto.
    - exists (plain_vertex 2 (1, 1, 1)). cbn. auto.
    - exists (plain_vertex 4 (2, 2, 2)). cbn. auto. }
  apply is_UB_ok. vm_compute. reflexivity.
Qed.
Print Assumptions C102_gap_refuted.

(** Curves: an example without END, with numbers from 5. *)
Definition ex_curve : list bytes :=
  [lit "GOCAD PLine 1"; lit "HEADER {"; lit "}"; lit "PROPERTIES a"; lit "ILINE"; lit "VRTX 5 1 2 3"; lit "PVRTX 6 4 5 6"; lit "ILINE"; lit "VRTX 7 7 8 9"; lit "SEG 7 5"; lit "SEG 6 7"].
Example C103_example : exists m, read_pl ExNum (unlines ex_curve) = Ok m /\ m_name m = None /\ m_points m = [(1, 2, 3); (4, 5, 6); (7, 8, 9)] /\
  Forall2 (joins2 [plain_vertex 5 (1, 2, 3); plain_vertex 6 (4, 5, 6); plain_vertex 7 (7, 8, 9)]) [(7, 5); (6, 7)] (m_cells m).
Proof.
  apply (C103_curve ExNum ex_curve None true [lit "PROPERTIES a"] (lit "ILINE") 
    [lit "VRTX 5 1 2 3"; lit "PVRTX 6 4 5 6"; lit "ILINE"; lit "VRTX 7 7 8 9"; lit "SEG 7 5"; lit "SEG 6 7"] [] 
    [plain_vertex 5 (1, 2, 3); plain_vertex 6 (4, 5, 6); plain_vertex 7 (7, 8, 9)] [(7, 5); (6, 7)]).
  - apply Forall_forall. intros l Hl. apply lineb_ok. revert l Hl. apply forallb_forall. reflexivity.
  - exists [], (lit "GOCAD PLine 1"), [lit "HEADER {"; lit "}"], []. split; [reflexivity|]. split; [constructor|]. split; [reflexivity|].
    split; [|split; [now left|reflexivity]]. exists (lit "HEADER {"), [], (lit "}"). repeat split; try constructor; reflexivity || now constructor.
  - repeat constructor.
  - reflexivity.
  - pose proof (cd_nil ExNum true) as D.
    eapply cd_vertex with (l := lit "VRTX 5 1 2 3") (v := plain_vertex 5 (1, 2, 3)) in D; [|eapply plain_vertex_line; try reflexivity; cbn; tauto|reflexivity]. cbn [app] in D.
    eapply cd_vertex with (l := lit "PVRTX 6 4 5 6") (v := plain_vertex 6 (4, 5, 6)) in D; [|eapply plain_vertex_line; try reflexivity; cbn; tauto|reflexivity]. cbn [app] in D.
    eapply cd_other with (l := lit "ILINE") in D; [|exists (lit "ILINE"), []; split; [reflexivity|]; cbn; intuition discriminate]. cbn [app] in D.
    eapply cd_vertex with (l := lit "VRTX 7 7 8 9") (v := plain_vertex 7 (7, 8, 9)) in D; [|eapply plain_vertex_line; try reflexivity; cbn; tauto|reflexivity]. cbn [app] in D.
    eapply cd_segment with (l := lit "SEG 7 5") (e := (7, 5)) in D; [|exists (lit "7"), (lit "5"), []; repeat split; reflexivity|discriminate]. cbn [app] in D.
    eapply cd_segment with (l := lit "SEG 6 7") (e := (6, 7)) in D; [|exists (lit "6"), (lit "7"), []; repeat split; reflexivity|discriminate]. cbn [app] in D.
    exact D.
  - now left.
  - unfold declared. repeat constructor; cbn [fst snd].
    + exists (plain_vertex 7 (7, 8, 9)). cbn. auto.
    + exists (plain_vertex 5 (1, 2, 3)). cbn. auto.
    + exists (plain_vertex 6 (4, 5, 6)). cbn. auto.
    + exists (plain_vertex 7 (7, 8, 9)). cbn. auto.
Qed.
(** ATOM lines of a curve are ignored: the vertex is lost and the segments that follow join other vertices. *)
Theorem C103_atom_refuted :
  exists l1 la l3 l4 ls_ v1 va v3 v4 e (m : mesh ExNum edge),
    vertex_line ExNum true [] l1 v1 /\ atom_line ExNum [] la (vx_number v1) va /\ vx_point va = vx_point v1 /\
    vertex_line ExNum true [] l3 v3 /\ vertex_line ExNum true [] l4 v4 /\ seg_words ls_ e /\
    next_number [v1] (vx_number va) /\ next_number [v1; va] (vx_number v3) /\ next_number [v1; va; v3] (vx_number v4) /\
    read_pl ExNum (unlines ([lit "GOCAD PLine 1"; lit "HEADER {"; lit "}"; lit "ILINE"; l1; la; l3; l4; ls_; lit "END"])) = Ok m /\
    m_points m = map vx_point [v1; v3; v4] /\
    m_cells m = [(0, 2)] /\ e = (vx_number v1, vx_number v3) /\ vx_point v4 <> vx_point v3.
Proof.
  assert (C : mesh_is zz_eqb (read_pl ExNum (unlines [lit "GOCAD PLine 1"; lit "HEADER {"; lit "}"; lit "ILINE"; lit "VRTX 1 0 0 0"; lit "ATOM 2 1"; lit "VRTX 3 1 1 1";
     lit "VRTX 4 2 2 2"; lit "SEG 1 3"; lit "END"])) None [(0, 0, 0); (1, 1, 1); (2, 2, 2)] [(0, 2)] [] = true) by (vm_compute; reflexivity).
  destruct (mesh_is_ok _ _ _ _ _ _ zz_eqb_ok C) as (m & R & _ & P & Cs & _).
  exists (lit "VRTX 1 0 0 0"), (lit "ATOM 2 1"), (lit "VRTX 3 1 1 1"), (lit "VRTX 4 2 2 2"), (lit "SEG 1 3"),
    (plain_vertex 1 (0, 0, 0)), (plain_vertex 2 (0, 0, 0)), (plain_vertex 3 (1, 1, 1)), (plain_vertex 4 (2, 2, 2)), (1, 3), m.
  split; [eapply plain_vertex_line; try reflexivity; cbn; tauto|].
  split. { exists (lit "ATOM"), (lit "2"), (lit "1"), []. do 4 (split; [cbn; tauto || reflexivity|]). split; [constructor|]. exists [], []. split; [reflexivity|constructor]. }
  split; [reflexivity|]. split; [eapply plain_vertex_line; try reflexivity; cbn; tauto|]. split; [eapply plain_vertex_line; try reflexivity; cbn; tauto|].
  split; [exists (lit "1"), (lit "3"), []; repeat split; reflexivity|]. do 3 (split; [reflexivity|]).
  split; [assumption|]. split; [assumption|]. split; [assumption|]. split; [reflexivity|discriminate].
Qed.
Print Assumptions C103_atom_refuted.

(** Point sets. *)
Definition ex_points : list bytes :=
  [lit "GOCAD VSet 1"; lit "HEADER {"; lit "name: w"; lit "}"; lit "SUBVSET"; lit "VRTX 7 1 2 3"; lit "SUBVSET"; lit "VRTX 2 4 5 6"; lit "END"; lit "trailing"].
Example C104_example : exists m, read_vs ExNum (unlines ex_points) = Ok m /\ m_name m = Some (lit "w") /\ m_points m = [(1, 2, 3); (4, 5, 6)] /\
  has_values [] [plain_vertex 7 (1, 2, 3); plain_vertex 2 (4, 5, 6)] m.
Proof.
  apply (C104_point_set ExNum ex_points (Some (lit "w")) true [] [lit "SUBVSET"] [lit "VRTX 7 1 2 3"; lit "SUBVSET"; lit "VRTX 2 4 5 6"] (lit "END") [lit "trailing"]
    [plain_vertex 7 (1, 2, 3); plain_vertex 2 (4, 5, 6)]).
  - apply Forall_forall. intros l Hl. apply lineb_ok. revert l Hl. apply forallb_forall. reflexivity.
  - exists []. split; [|split; [now left|reflexivity]].
    exists [], (lit "GOCAD VSet 1"), [lit "HEADER {"; lit "name: w"; lit "}"], []. split; [reflexivity|]. split; [constructor|]. split; [reflexivity|].
    split; [|split; [now left|reflexivity]]. exists (lit "HEADER {"), [lit "name: w"], (lit "}"). split; [reflexivity|]. split; [reflexivity|]. split; [repeat constructor|].
    split; [reflexivity|]. right. exists [], (lit "name: w"), [], (lit " w"). repeat split; constructor.
  - repeat constructor.
  - exists (lit "VRTX 7 1 2 3"), [lit "SUBVSET"; lit "VRTX 2 4 5 6"]. split; [reflexivity|now left].
  - pose proof (pd_nil ExNum true []) as D.
    eapply pd_vertex with (l := lit "VRTX 7 1 2 3") (v := plain_vertex 7 (1, 2, 3)) in D; [|eapply plain_vertex_line; try reflexivity; cbn; tauto]. cbn [app] in D.
    eapply pd_other with (l := lit "SUBVSET") in D; [|exists (lit "SUBVSET"), []; split; [reflexivity|]; cbn; intuition discriminate]. cbn [app] in D.
    eapply pd_vertex with (l := lit "VRTX 2 4 5 6") (v := plain_vertex 2 (4, 5, 6)) in D; [|eapply plain_vertex_line; try reflexivity; cbn; tauto]. cbn [app] in D.
    exact D.
  - now exists [].
  - repeat constructor.
  - constructor.
  - split; constructor.
Qed.
(** ATOM lines of a point set are ignored. *)
Theorem C104_atom_refuted :
  exists l1 la v1 va (m : mesh ExNum unit), vertex_line ExNum true [] l1 v1 /\ atom_line ExNum [] la (vx_number v1) va /\
    read_vs ExNum (unlines [lit "GOCAD VSet 1"; lit "HEADER {"; lit "}"; l1; la; lit "END"]) = Ok m /\ m_points m = [vx_point v1].
Proof.
  assert (C : mesh_is (fun _ _ => true) (read_vs ExNum (unlines [lit "GOCAD VSet 1"; lit "HEADER {"; lit "}"; lit "VRTX 1 0 0 0"; lit "ATOM 2 1"; lit "END"])) None
    [(0, 0, 0)] [] [] = true) by (vm_compute; reflexivity).
  assert (U : forall x y : unit, (fun _ _ : unit => true) x y = true -> x = y) by (now intros [] []).
  destruct (mesh_is_ok _ _ _ _ _ _ U C) as (m & R & _ & P & _).
  exists (lit "VRTX 1 0 0 0"), (lit "ATOM 2 1"), (plain_vertex 1 (0, 0, 0)), (plain_vertex 2 (0, 0, 0)), m.
  split; [eapply plain_vertex_line; try reflexivity; cbn; tauto|].
  split. { exists (lit "ATOM"), (lit "2"), (lit "1"), []. do 4 (split; [cbn; tauto || reflexivity|]). split; [constructor|]. exists [], []. split; [reflexivity|constructor]. }
  split; assumption.
Qed.
Print Assumptions C104_atom_refuted.
